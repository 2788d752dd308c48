(** * Base definitions shared by the whole model.

    Conventions are described in /verif/DESIGN.md: machine integers are [Z], bytes are [Z] in 0..255,
    outcomes are [res].  Definitions without a citation model the Rust language and its standard library (integer
    arithmetic, slices, [Result], [Option]), which the crate uses throughout; they have no code of their own in /repo. *)
From Coq Require Export ZArith List Bool.
Export ListNotations.
Open Scope Z_scope.

(** ** Machine integer ranges *)
Definition U16_MAX : Z := 65535.
Definition U32_MAX : Z := 4294967295.
Definition U64_MAX : Z := 18446744073709551615.
Definition I64_MAX : Z := 9223372036854775807.
Definition I64_MIN : Z := -9223372036854775808.
Definition TWO64 : Z := 18446744073709551616.

(** Rust [uN::checked_add] / [checked_sub] / [checked_mul] for u64 (core::num). *)
Definition checked_add64 (a b : Z) : option Z := if a + b <=? U64_MAX then Some (a + b) else None.
Definition checked_sub64 (a b : Z) : option Z := if b <=? a then Some (a - b) else None.
Definition checked_mul64 (a b : Z) : option Z := if a * b <=? U64_MAX then Some (a * b) else None.

(** Two's complement reinterpretation of a u64 as an i64 (Rust [as i64]). *)
Definition to_i64 (x : Z) : Z := if x <=? I64_MAX then x else x - TWO64.

(** ** Bytes and byte strings *)
Definition is_byte (b : Z) : Prop := 0 <= b <= 255.
Definition bytes_ok (l : list Z) : Prop := Forall is_byte l.

Definition zlen {A} (l : list A) : Z := Z.of_nat (length l).

(** First [n] elements / all but the first [n] elements, with [Z] counters. *)
Fixpoint ztake {A} (n : Z) (l : list A) : list A :=
  match l with
  | [] => []
  | x :: t => if n <=? 0 then [] else x :: ztake (n - 1) t
  end.

Fixpoint zdrop {A} (n : Z) (l : list A) : list A :=
  match l with
  | [] => []
  | x :: t => if n <=? 0 then l else zdrop (n - 1) t
  end.

(** The bytes [a..b) of [l], without any bounds check. *)
Definition slice (l : list Z) (a b : Z) : list Z := ztake (b - a) (zdrop a l).

(** Rust [slice.get(a..b)]. *)
Definition get_range (l : list Z) (a b : Z) : option (list Z) :=
  if (0 <=? a) && (a <=? b) && (b <=? zlen l) then Some (slice l a b) else None.

(** Overwrite the bytes of [l] from position [a] on with [bs] (Rust [copy_from_slice] on a sub-slice). *)
Definition update_range (l : list Z) (a : Z) (bs : list Z) : list Z :=
  ztake a l ++ bs ++ zdrop (a + zlen bs) l.

(** Little endian value of a byte string. *)
Fixpoint le_val (l : list Z) : Z :=
  match l with
  | [] => 0
  | b :: t => b + 256 * le_val t
  end.

Fixpoint list_eqb (a b : list Z) : bool :=
  match a, b with
  | [], [] => true
  | x :: s, y :: t => (x =? y) && list_eqb s t
  | _, _ => false
  end.

Definition zrepeat (x n : Z) : list Z := repeat x (Z.to_nat n).

(** ** Positions: src/types.rs 16-42.  [None] is "no valid position"; a [Some] value is nonzero. *)
Definition position := option Z.

(** src/types.rs 30-32 [NtfsPosition::new] (via [NonZeroU64::new]). *)
Definition pos_new (p : Z) : position := if p =? 0 then None else Some p.

(** src/types.rs 52-61 [Add<u64> for NtfsPosition]: [wrapping_add], zero becomes [None]. *)
Definition pos_add (p : position) (n : Z) : position :=
  match p with
  | Some v => pos_new ((v + n) mod TWO64)
  | None => None
  end.

(** ** Errors *)
(** [io::ErrorKind]s that the crate distinguishes or produces. *)
Inductive iokind := Interrupted | UnexpectedEof | InvalidInput | OtherIo.

(** src/error.rs 18-228: the variants of [NtfsError] with their payload.
    Simplification: [&'static] expected signatures are omitted. *)
Inductive err :=
| EAttributeNotFound (p : position) (ty : Z)
| EAttributeOfDifferentType (p : position) (expected actual : Z)
| EBufferTooSmall (expected actual : Z)
| EInvalidAttributeLength (p : position) (expected actual : Z)
| EInvalidAttributeNameLength (p : position) (expected actual : Z)
| EInvalidAttributeNameOffset (p : position) (expected actual : Z)
| EInvalidByteCountInDataRunHeader (p : position) (expected actual : Z)
| EInvalidClusterCountInDataRunHeader (p : position) (cluster_count : Z)
| EInvalidFileAllocatedSize (p : position) (expected actual : Z)
| EInvalidFileRecordNumber (n : Z)
| EInvalidFileSignature (p : position) (actual : list Z)
| EInvalidFileUsedSize (p : position) (expected actual : Z)
| EInvalidIndexAllocatedSize (p : position) (expected actual : Z)
| EInvalidIndexEntryDataRange (p : position) (a b size : Z)
| EInvalidIndexEntrySize (p : position) (expected actual : Z)
| EInvalidIndexRootEntriesOffset (p : position) (expected actual : Z)
| EInvalidIndexRootUsedSize (p : position) (expected actual : Z)
| EInvalidIndexSignature (p : position) (actual : list Z)
| EInvalidIndexUsedSize (p : position) (expected actual : Z)
| EInvalidMftLcn
| EInvalidNonResidentValueDataRange (p : position) (a b size : Z)
| EInvalidResidentAttributeValueLength (p : position) (length offset actual : Z)
| EInvalidResidentAttributeValueOffset (p : position) (expected actual : Z)
| EInvalidRecordSizeInfo (size_info cluster_size : Z)
| EInvalidSectorsPerCluster (spc : Z)
| EInvalidStructuredValueSize (p : position) (ty expected actual : Z)
| EInvalidTime
| EInvalidTwoByteSignature (p : position) (actual : list Z)
| EInvalidUpcaseTableSize (expected actual : Z)
| EInvalidUpdateSequenceCount (p : position) (count : Z)
| EInvalidUpdateSequenceNumberRange (p : position) (a b size : Z)
| EInvalidVcnInDataRunHeader (p : position) (vcn previous_lcn : Z)
| EIo (k : iokind)
| ELcnTooBig (lcn : Z)
| EMissingIndexAllocation (p : position)
| ENotADirectory (p : position)
| ETotalSectorsTooBig (n : Z)
| EUnexpectedAttributeListAttribute (p : position)
| EUnexpectedNonResidentAttribute (p : position)
| EUnexpectedResidentAttribute (p : position)
| EUnsupportedAttributeType (p : position) (actual : Z)
| EUnsupportedClusterSize (min max actual : Z)
| EUnsupportedFileNamespace (p : position) (actual : Z)
| EUnsupportedSectorSize (min max actual : Z)
| EUpdateSequenceArrayExceedsRecordSize (p : position) (array_count record_size : Z)
| EUpdateSequenceNumberMismatch (p : position) (expected actual : list Z)
| EVcnMismatchInIndexAllocation (p : position) (expected actual : Z)
| EVcnOutOfBoundsInIndexAllocation (p : position) (vcn : Z)
| EVcnTooBig (vcn : Z).

(** ** Outcomes *)
Inductive res (A : Type) :=
| Ok (a : A)
| Err (e : err)
| Panic
| OutOfFuel.
Arguments Ok {A} a.
Arguments Err {A} e.
Arguments Panic {A}.
Arguments OutOfFuel {A}.

Definition rbind {A B} (r : res A) (f : A -> res B) : res B :=
  match r with
  | Ok a => f a
  | Err e => Err e
  | Panic => Panic
  | OutOfFuel => OutOfFuel
  end.

(** The Rust [?] operator on a [Result]. *)
Notation "'let?' x ':=' r 'in' k" := (rbind r (fun x => k))
  (at level 200, x name, r at level 100, k at level 200, right associativity).

(** Rust [slice[a..b]]: panics when out of range. *)
Definition idx_range (l : list Z) (a b : Z) : res (list Z) :=
  match get_range l a b with Some s => Ok s | None => Panic end.

(** [LittleEndian::read_uN(&data[off..])] and [data[off]] for an N/8 = [n] byte field: panics when fewer than
    [n] bytes are available. *)
Definition rd (n : Z) (l : list Z) (off : Z) : res Z :=
  match get_range l off (off + n) with Some s => Ok (le_val s) | None => Panic end.
Definition rd_u8 := rd 1.
Definition rd_u16 := rd 2.
Definition rd_u32 := rd 4.
Definition rd_u64 := rd 8.

(** Value of the little endian field of [n] bytes at [off], without bounds check (spec level). *)
Definition field (n : Z) (l : list Z) (off : Z) : Z := le_val (slice l off (off + n)).

(** Iterator results: [None] is the end, [Some (Err _)] an error item. *)
Definition item A := option (res A).

