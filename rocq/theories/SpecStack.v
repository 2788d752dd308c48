(** * Specification for C75: programs that use a reader only by seeking and then reading once. *)
From Verif Require Import Base Dev SectorReader BufReader Spec SpecMisc SpecFaults.

(** What a program does depends on the answers it has had: it ends with a result, or seeks to [p], reads [n] bytes ([exact]: with [read_exact]) and goes on with the
    bytes or the error. If the seek fails it does not read. *)
Inductive prog (X : Type) : Type :=
| Return (x : X)
| Access (p n : Z) (exact : bool) (next : res (list Z) -> prog X).
Arguments Return {X}. Arguments Access {X}.

(** Directly on a device. *)
Definition device_access (p n : Z) (exact : bool) : M (list Z) :=
  do _u <- dev_seek p; if exact then dev_read_exact n else dev_read n.
Fixpoint on_device {X} (pr : prog X) (d : dev) : dev * X :=
  match pr with
  | Return x => (d, x)
  | Access p n exact next => let '(d1, r) := device_access p n exact d in on_device (next r) d1
  end.
(** Through the reader of the example program. *)
Definition shell_access (cap : Z) (b : breader) (p n : Z) (exact : bool) (d : dev) : dev * (breader * res (list Z)) :=
  match buf_seek b p d with
  | (d1, (b1, Ok _)) => if exact then buf_read_exact cap b1 n d1 else buf_read cap b1 n d1
  | (d1, (b1, Err e)) => (d1, (b1, Err e))
  | (d1, (b1, Panic)) => (d1, (b1, Panic))
  | (d1, (b1, OutOfFuel)) => (d1, (b1, OutOfFuel))
  end.
Fixpoint on_shell_reader {X} (cap : Z) (pr : prog X) (b : breader) (d : dev) : X :=
  match pr with
  | Return x => x
  | Access p n exact next => let '(d1, (b1, r)) := shell_access cap b p n exact d in on_shell_reader cap (next r) b1 d1
  end.

(** Positions are u64, and no buffer has more than [isize::MAX] bytes. *)
Fixpoint asks_ok {X} (pr : prog X) : Prop :=
  match pr with
  | Return _ => True
  | Access p n _ next => 0 <= p <= U64_MAX /\ 0 <= n <= I64_MAX /\ forall r, asks_ok (next r)
  end.

(** The sector reader needs the sectors around the bytes and one more, for at least as many bytes as the buffer holds. [too_near]: these are not all there. *)
Definition too_near (sector cap len p n : Z) : Prop := len < round_down sector (p + Z.max n cap) + sector.
(** Running on the bytes [img], the program keeps away from the end. *)
Fixpoint keeps_away {X} (sector cap : Z) (img : list Z) (pr : prog X) : Prop :=
  match pr with
  | Return _ => True
  | Access p n _ next => ~ too_near sector cap (zlen img) p n /\ keeps_away sector cap img (next (Ok (slice img p (p + n))))
  end.
(** A device without any faults or short reads. *)
Definition plain_device (img : list Z) : dev := mkDev img 0 [] [].
(** A device whose reads always give all the bytes there are, while seeks may fail: [errors] says which do, and how. *)
Definition failing_device (img : list Z) (errors : list (option iokind)) : dev := mkDev img 0 [] errors.

(** The devices of this kind on which no seek is interrupted, and that have less than 2^63 - 1 bytes. *)
Definition full_device (d : dev) : Prop := d_reads d = [] /\ ~ In (Some Interrupted) (d_seeks d) /\ zlen (d_img d) < I64_MAX.
(** [pr] does what [m] does, on all of them. *)
Definition performs {X} (pr : prog X) (m : dev -> X) : Prop := asks_ok pr /\ forall d, full_device d -> snd (on_device pr d) = m d.
(** [m] uses the reader as a program does, and through the reader of the example program it gives what it gives on one of these devices: one with the same bytes,
    whose errors are errors of the underlying device, or the end of the file. Without faults and away from the end there are none. *)
Definition right_through_stack {X} (m : dev -> X) : Prop :=
  exists pr, performs pr m /\
    forall sector cap b d, 0 < sector <= 2 ^ 62 -> 0 < cap <= I64_MAX -> sr_sector (bf_inner b) = sector -> zlen (d_img d) < I64_MAX -> ~ reports d Interrupted ->
    (exists errors, (forall k, In (Some k) errors -> reports d k \/ k = UnexpectedEof) /\
      on_shell_reader cap pr b d = m (failing_device (d_img d) errors)) /\
    (faultless d -> keeps_away sector cap (d_img d) pr -> on_shell_reader cap pr b d = m (plain_device (d_img d))).

(** Reading a structure field by field: [Field n] reads the next [n] bytes with [read_exact], [Tell] asks for the position
    with [stream_position], [Here] with a seek to where it is. *)
Inductive field_step := Field (n : Z) | Tell | Here.
Definition step_size (s : field_step) : Z := match s with Field n => n | _ => 0 end.
Fixpoint total (l : list field_step) : Z := match l with [] => 0 | s :: t => step_size s + total t end.
(** The positions told and the bytes of the fields, up to the first error. *)
Fixpoint shell_steps (cap : Z) (b : breader) (l : list field_step) (d : dev) : res (list Z * list (list Z)) :=
  match l with
  | [] => Ok ([], [])
  | Field n :: t =>
      let '(d1, (b1, r)) := buf_read_exact cap b n d in
      let? bs := r in let? x := shell_steps cap b1 t d1 in Ok (fst x, bs :: snd x)
  | Tell :: t =>
      let '(d1, (b1, r)) := buf_tell b d in
      let? q := r in let? x := shell_steps cap b1 t d1 in Ok (q :: fst x, snd x)
  | Here :: t =>
      let '(d1, (b1, r)) := buf_here b d in
      let? q := r in let? x := shell_steps cap b1 t d1 in Ok (q :: fst x, snd x)
  end.
Definition shell_fields (cap : Z) (b : breader) (p : Z) (l : list field_step) (d : dev) : res (list Z * list (list Z)) :=
  let '(d1, (b1, r)) := buf_seek b p d in let? _u := r in shell_steps cap b1 l d1.
(** The right answer. *)
Fixpoint right_steps (img : list Z) (p : Z) (l : list field_step) : list Z * list (list Z) :=
  match l with
  | [] => ([], [])
  | Field n :: t => let x := right_steps img (p + n) t in (fst x, slice img p (p + n) :: snd x)
  | _ :: t => let x := right_steps img p t in (p :: fst x, snd x)
  end.
