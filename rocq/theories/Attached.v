(** * Values attached to a device: src/attribute_value/mod.rs 106-162, src/attribute_value/non_resident.rs 201-258,
      src/error.rs 240-257, and the loops of the standard library that are run over them. *)
From Verif Require Import Base Dev Types DataRuns Stream NonResident Resident Attribute AttrList.

(** src/error.rs 249-257: [io::Error], either one of the device, or one that wraps an error of this library (kind [Other]). *)
Inductive io_error := IoKind (k : iokind) | IoWrapped (e : err).
(** src/error.rs 249-257 [From<NtfsError> for io::Error]. *)
Definition io_of_err (e : err) : io_error := match e with EIo k => IoKind k | _ => IoWrapped e end.
(** src/error.rs 254: [io::Error::kind]. *)
Definition io_kind (x : io_error) : iokind := match x with IoKind k => k | IoWrapped _ => OtherIo end.

(** src/attribute_value/mod.rs 151, 160: [io::Result]; panics and missing fuel as in [res]. *)
Inductive ior (A : Type) := IOk (x : A) | IErr (e : io_error) | IPanic | IOutOfFuel.
Arguments IOk {A}. Arguments IErr {A}. Arguments IPanic {A}. Arguments IOutOfFuel {A}.
(** src/attribute_value/mod.rs 152 [map_err(io::Error::from)]. *)
Definition ior_of {A} (r : res A) : ior A :=
  match r with Ok x => IOk x | Err e => IErr (io_of_err e) | Panic => IPanic | OutOfFuel => IOutOfFuel end.

(** src/attribute_value/mod.rs 109-112 [NtfsAttributeValueAttached], src/attribute_value/non_resident.rs 204-207
    [NtfsNonResidentAttributeValueAttached]: the borrowed device and the value, whose type is a parameter here. *)
Record att (V : Type) := mkAtt { at_dev : dev; at_value : V }.
Arguments mkAtt {V}. Arguments at_dev {V}. Arguments at_value {V}.

(** src/attribute_value/mod.rs 38-43 and src/attribute_value/non_resident.rs 61-69 [attach]. *)
Definition attach {V} (v : V) (d : dev) : att V := mkAtt d v.
(** src/attribute_value/mod.rs 131-133 and src/attribute_value/non_resident.rs 227-229 [detach]; the borrow of the device ends. *)
Definition detach {V} (a : att V) : dev * V := (at_dev a, at_value a).

Section Attached.
  Context {V : Type} (read : V -> Z -> dev -> dev * (V * res (list Z))) (seek : V -> seekfrom -> dev -> dev * (V * res Z)).
  (** src/attribute_value/mod.rs 151-153 and src/attribute_value/non_resident.rs 247-249 [read]. *)
  Definition att_read (a : att V) (n : Z) : att V * ior (list Z) :=
    let '(d, (v, r)) := read (at_value a) n (at_dev a) in (mkAtt d v, ior_of r).
  (** src/attribute_value/mod.rs 159-161 and src/attribute_value/non_resident.rs 255-257 [seek]. *)
  Definition att_seek (a : att V) (p : seekfrom) : att V * ior Z :=
    let '(d, (v, r)) := seek (at_value a) p (at_dev a) in (mkAtt d v, ior_of r).
End Attached.

(** src/attribute_value/mod.rs 126-128, 141-143 and 136-138: [data_position], [len], [is_empty] of an attached value. *)
Definition att_data_position (a : att aval) : position := av_data_position (at_value a).
(** src/attribute_value/mod.rs 141-143 [len]. *)
Definition att_len (a : att aval) : Z := av_len (at_value a).
(** src/attribute_value/mod.rs 136-138 [is_empty]. *)
Definition att_is_empty (a : att aval) : bool := att_len a =? 0.

(** ** What the standard library does with a reader (src/attribute_value/mod.rs 146-154 implements its trait [Read]).
    [rd] is the reader's [read]. *)
Section Std.
  Context {O : Type} (rd : O -> Z -> O * ior (list Z)).
  (** src/attribute_value/mod.rs 146-154: [Read::read_to_end] of the standard library (also [io::copy]): reads until nothing comes, goes on after
      [Interrupted], and ends with any other error. How much it asks for each time depends on the version of the library: the [i]th call offers
      [sizes i] bytes. The first component is what has been appended to the buffer. *)
  Fixpoint read_to_end (sizes : nat -> Z) (fuel : nat) (i : nat) (o : O) (acc : list Z) : O * (list Z * ior unit) :=
    match fuel with
    | 0%nat => (o, (acc, IOutOfFuel))
    | S f =>
        match rd o (sizes i) with
        | (o1, IOk []) => (o1, (acc, IOk tt))
        | (o1, IOk bs) => read_to_end sizes f (S i) o1 (acc ++ bs)
        | (o1, IErr x) => match io_kind x with Interrupted => read_to_end sizes f (S i) o1 acc | _ => (o1, (acc, IErr x)) end
        | (o1, IPanic) => (o1, (acc, IPanic))
        | (o1, IOutOfFuel) => (o1, (acc, IOutOfFuel))
        end
    end.
  (** src/attribute_value/mod.rs 146-154: [Read::read_exact] of the standard library for a buffer of [n] bytes. *)
  Fixpoint std_read_exact (fuel : nat) (o : O) (n : Z) (acc : list Z) : O * ior (list Z) :=
    if n <=? 0 then (o, IOk acc) else
    match fuel with
    | 0%nat => (o, IOutOfFuel)
    | S f =>
        match rd o n with
        | (o1, IOk []) => (o1, IErr (IoKind UnexpectedEof))
        | (o1, IOk bs) => std_read_exact f o1 (n - zlen bs) (acc ++ bs)
        | (o1, IErr x) => match io_kind x with Interrupted => std_read_exact f o1 n acc | _ => (o1, IErr x) end
        | (o1, IPanic) => (o1, IPanic)
        | (o1, IOutOfFuel) => (o1, IOutOfFuel)
        end
    end.
End Std.
