(** * The filesystem reader [T: Read + Seek] that is passed to all functions of the crate.

    A device is an image, a cursor and schedules that say what the next read and seek calls do.  A theorem about all
    devices therefore covers all short-read patterns, interruptions and failures.  The reader is supplied by the user of
    the crate, so there is no code in /repo for it: the definitions model the traits [std::io::Read] and [std::io::Seek]. *)
From Verif Require Import Base.

(** What one [Read::read] call does. [RShort k]: returns at most [k+1] bytes. [RErr e]: fails with kind [e]. *)
Inductive rd_event := RShort (k : nat) | RErr (e : iokind).

Record dev := mkDev {
  d_img : list Z;
  d_pos : Z;
  d_reads : list rd_event;           (* schedule of the next read calls; exhausted = full reads *)
  d_seeks : list (option iokind)     (* schedule of the next seek calls; exhausted = success *)
}.

(** Computations that use the device and may fail. *)
Definition M (A : Type) := dev -> dev * res A.

Definition mret {A} (a : A) : M A := fun d => (d, Ok a).
Definition mlift {A} (r : res A) : M A := fun d => (d, r).
Definition mbind {A B} (m : M A) (f : A -> M B) : M B := fun d =>
  match m d with
  | (d', Ok a) => f a d'
  | (d', Err e) => (d', Err e)
  | (d', Panic) => (d', Panic)
  | (d', OutOfFuel) => (d', OutOfFuel)
  end.

Notation "'do' x <- m ; k" := (mbind m (fun x => k))
  (at level 200, x name, m at level 100, k at level 200, right associativity).
Notation "'try' x <- r ; k" := (mbind (mlift r) (fun x => k))
  (at level 200, x name, r at level 100, k at level 200, right associativity).

(** [Seek::seek(SeekFrom::Start(n))] of the filesystem reader. *)
Definition dev_seek (n : Z) : M unit := fun d =>
  match d_seeks d with
  | Some e :: t => (mkDev (d_img d) (d_pos d) (d_reads d) t, Err (EIo e))
  | None :: t => (mkDev (d_img d) n (d_reads d) t, Ok tt)
  | [] => (mkDev (d_img d) n (d_reads d) [], Ok tt)
  end.

(** The bytes at and after a position. Positions are u64 in the code; there is nothing before the beginning. *)
Definition from_pos (p : Z) (img : list Z) : list Z := if p <? 0 then [] else zdrop p img.

(** [Read::read] of the filesystem reader with an [n] byte buffer: the bytes read. *)
Definition dev_read (n : Z) : M (list Z) := fun d =>
  let avail := ztake n (from_pos (d_pos d) (d_img d)) in
  match d_reads d with
  | RErr e :: t => (mkDev (d_img d) (d_pos d) t (d_seeks d), Err (EIo e))
  | RShort k :: t =>
      let bs := ztake (Z.of_nat k + 1) avail in
      (mkDev (d_img d) (d_pos d + zlen bs) t (d_seeks d), Ok bs)
  | [] => (mkDev (d_img d) (d_pos d + zlen avail) [] (d_seeks d), Ok avail)
  end.

(** [std::io::Read::read_exact] (default implementation) on the filesystem reader: retry on [Interrupted],
    [UnexpectedEof] when a read returns no bytes.  Every iteration with a nonempty schedule consumes one event, and with
    an exhausted schedule the first read is complete, so [length (d_reads d) + 2] iterations suffice
    (theorem [dev_read_exact_fuel] in DevProofs.v). *)
Fixpoint dev_read_exact_loop (fuel : nat) (n : Z) (acc : list Z) : M (list Z) := fun d =>
  if n <=? 0 then (d, Ok acc) else
  match fuel with
  | O => (d, OutOfFuel)
  | S f =>
      match dev_read n d with
      | (d', Ok []) => (d', Err (EIo UnexpectedEof))
      | (d', Ok bs) => dev_read_exact_loop f (n - zlen bs) (acc ++ bs) d'
      | (d', Err (EIo Interrupted)) => dev_read_exact_loop f n acc d'
      | (d', r) => (d', r)
      end
  end.

Definition dev_read_exact (n : Z) : M (list Z) := fun d =>
  dev_read_exact_loop (length (d_reads d) + 2) n [] d.

(** Spec vocabulary: a device that never fails (but may give short reads). *)
Definition read_ok (e : rd_event) : Prop := match e with RShort _ => True | RErr _ => False end.
Definition seek_ok (e : option iokind) : Prop := e = None.
Definition faultless (d : dev) : Prop := Forall read_ok (d_reads d) /\ Forall seek_ok (d_seeks d).

(** Operations on values that implement [NtfsReadSeek] (src/traits.rs). *)
Inductive seekfrom := SStart (n : Z) | SEnd (n : Z) | SCurrent (n : Z).
