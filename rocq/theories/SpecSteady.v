(** * Specification for devices that hold the same bytes, independent of the model of the library. *)
From Verif Require Import Base Dev.
From Verif Require Shell.

(** Two devices with the same contents that do not fail. They may differ in where their cursors are, and in how many bytes each of their reads returns. *)
Definition same_contents (d e : dev) : Prop := faultless d /\ faultless e /\ d_img d = d_img e /\ zlen (d_img d) <= TWO64.

(** A call is steady: on two devices with the same contents the outcomes, if the calls end, are the same (with whatever fuel), and the devices still
    have the same contents. *)
Definition steady {B} (ended : B -> Prop) (call : nat -> dev -> dev * B) : Prop := forall d e k k', same_contents d e ->
  let '(d1, x) := call k d in let '(e1, y) := call k' e in ended x -> ended y -> x = y /\ same_contents d1 e1.
Definition steady_call {A} (call : nat -> dev -> dev * res A) : Prop := steady (fun x => x <> OutOfFuel) call.
Definition steady_value {S A} (call : nat -> dev -> dev * (S * res A)) : Prop := steady (fun x => snd x <> OutOfFuel) call.
Definition steady_find {A} (call : nat -> dev -> dev * option (res A)) : Prop := steady (fun x => x <> Some OutOfFuel) call.
Definition steady_next {S A} (call : nat -> dev -> dev * (S * option (res A))) : Prop := steady (fun x => snd x <> Some OutOfFuel) call.
(** A session of the example program, and each of its commands, has ended. *)
Definition session_ended (x : res (list (Shell.reply * list Z))) : Prop :=
  x <> OutOfFuel /\ forall l, x = Ok l -> Forall (fun r => Shell.re_outcome (fst r) <> OutOfFuel) l.
