(** * Specification for device faults, independent of the model of the library. *)
From Verif Require Import Base Dev.
From Verif Require Shell SpecVolume.

(** The same device without its faults: the calls that would have failed succeed (a read transfers one byte). *)
Definition calm_read (e : rd_event) : rd_event := match e with RErr _ => RShort 0 | RShort k => RShort k end.
Definition without_faults (d : dev) : dev :=
  mkDev (d_img d) (d_pos d) (map calm_read (d_reads d)) (map (fun _ => None) (d_seeks d)).
(** A call to the device is going to fail with an error of this kind. *)
Definition reports (d : dev) (k : iokind) : Prop := In (RErr k) (d_reads d) \/ In (Some k) (d_seeks d).
(** How many calls are going to fail. *)
Definition faults (d : dev) : nat :=
  length (filter (fun e => match e with RErr _ => true | RShort _ => false end) (d_reads d)) +
  length (filter (fun e => match e with Some _ => true | None => false end) (d_seeks d)).
(** An outcome that is an error of the device. *)
Definition device_error (d : dev) {A} (r : res A) : Prop := exists k, reports d k /\ r = Err (EIo k).

(** A call is honest on a device: either no fault has occurred, and everything is as on the device without its faults; or exactly one fault has
    occurred, and the call has failed with it. In both cases the device still has its contents and the faults to come. *)
Definition honest (d : dev) {B} (failed : B -> Prop) (call : dev -> dev * B) : Prop :=
  let '(d1, b) := call d in let '(e1, due) := call (without_faults d) in
  d_img d1 = d_img d /\ (forall k, reports d1 k -> reports d k) /\
  (b = due /\ e1 = without_faults d1 /\ faults d1 = faults d \/ failed b /\ S (faults d1) = faults d).
(** For the different kinds of calls: with just an outcome, with a new state of a value, or of an iterator. *)
Definition honest_call (d : dev) {A} (call : dev -> dev * res A) : Prop := honest d (device_error d) call.
Definition honest_value (d : dev) {S A} (call : dev -> dev * (S * res A)) : Prop := honest d (fun p => device_error d (snd p)) call.
Definition honest_find (d : dev) {A} (call : dev -> dev * option (res A)) : Prop := honest d (fun i => exists r, i = Some r /\ device_error d r) call.
Definition honest_next (d : dev) {S A} (call : dev -> dev * (S * option (res A))) : Prop := honest d (fun p => exists r, snd p = Some r /\ device_error d r) call.

(** ** The example program *)
Definition begins {X} (l whole : list X) : Prop := exists t, whole = l ++ t.
(** A command has been hit by a fault: it fails with the error of the device, having shown and written a beginning of what it should have. *)
Definition harmed (d : dev) (due r : Shell.reply) : Prop :=
  device_error d (Shell.re_outcome r) /\ begins (Shell.re_lines r) (Shell.re_lines due) /\ begins (Shell.re_data r) (Shell.re_data due).
(** The name of the volume has not been shown, without an error. *)
Definition nameless (due r : Shell.reply) : Prop :=
  exists l, r = Shell.mkReply (l ++ [Shell.LLabel None]) [] (Ok (Shell.Done tt)) /\
    (Shell.re_outcome due = Ok (Shell.Done tt) -> exists name, Shell.re_lines due = l ++ [Shell.LLabel name]).

(** A history of commands in which [n] of them have been hit by a fault; these leave the current directory as it is. *)
Inductive harmed_history (img : list Z) (v : SpecVolume.volume) (d : dev) : SpecVolume.path -> list Shell.command -> list (Shell.reply * list Z) -> nat -> Prop :=
| hh_nil p : harmed_history img v d p [] [] 0
| hh_right p c r p' cs l n : SpecVolume.answers img v p c r p' -> harmed_history img v d p' cs l n ->
    harmed_history img v d p (c :: cs) ((r, SpecVolume.prompt p') :: l) n
| hh_harmed p c due p' r cs l n : SpecVolume.answers img v p c due p' -> harmed d due r -> harmed_history img v d p cs l n ->
    harmed_history img v d p (c :: cs) ((r, SpecVolume.prompt p) :: l) (S n)
| hh_nameless p due r cs l n : SpecVolume.answers img v p Shell.DoFsinfo due p -> nameless due r -> harmed_history img v d p cs l n ->
    harmed_history img v d p (Shell.DoFsinfo :: cs) ((r, SpecVolume.prompt p) :: l) (S n).
