(** * Specification for attached values: programs that use a reader, and readers over bytes in memory. *)
From Verif Require Import Base Dev.
From Verif Require Import Attached Spec.

(** What a program sees of a reader: the outcome of each of its calls. *)
Inductive answer := ABytes (r : ior (list Z)) | APos (r : ior Z).

(** Bytes in memory with a position ([io::Cursor]); [size] is where [SeekFrom::End] starts. *)
Definition memory_step (content : list Z) (size p : Z) (o : op) : Z * answer :=
  match o with
  | ORead n => let bs := ztake n (zdrop p content) in (p + zlen bs, ABytes (IOk bs))
  | OSeek s =>
      let q := seek_target size p s in
      if (0 <=? q) && (q <=? U64_MAX) then (q, APos (IOk q)) else (p, APos (IErr (IoKind InvalidInput)))
  end.
(** A reader with the methods [rd] and [sk] of the traits [Read] and [Seek]. *)
Definition reader_of {O} (rd : O -> Z -> O * ior (list Z)) (sk : O -> seekfrom -> O * ior Z) (o : O) (c : op) : O * answer :=
  match c with
  | ORead n => let '(o', r) := rd o n in (o', ABytes r)
  | OSeek s => let '(o', r) := sk o s in (o', APos r)
  end.

(** A program: what it does next, given the answers that it has had so far (the last one first). [n] calls of it on the object [o]. *)
Definition program := list answer -> op.
Fixpoint conversation {O} (step : O -> op -> O * answer) (prog : program) (n : nat) (seen : list answer) (o : O) : list answer :=
  match n with
  | 0%nat => seen
  | S k => let '(o', a) := step o (prog seen) in conversation step prog k (a :: seen) o'
  end.

(** From here on, the value behaves as a cursor at [p] over [content]. *)
Definition acts_as {V} (read : V -> Z -> dev -> dev * (V * res (list Z))) (seek : V -> seekfrom -> dev -> dev * (V * res Z)) (v : V) (d : dev)
  (content : list Z) (size p : Z) : Prop :=
  forall ops, Forall op_ok ops -> reader_run read seek v d ops = cursor_run content size p ops.

(** The reader after the calls [ops]. *)
Definition after {O} (step : O -> op -> O * answer) (ops : list op) (o : O) : O := fold_left (fun o c => fst (step o c)) ops o.
