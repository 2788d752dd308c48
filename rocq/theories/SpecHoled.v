(** * Specification of the iteration over a directory of which some nodes cannot be read. *)
From Verif Require Import Base Dev Types Spec SpecIndex SpecFaults.
From Verif Require Index.

(** The entry at [o] is sound and refers to the node number [vcn] (stored as a signed number of 64 bits). *)
Definition points_to (data : list Z) (o vcn : Z) : Prop :=
  entry_has_subnode data o = true /\ 24 <= entry_len data o /\
  let n := field 8 data (o + entry_len data o - 8) in vcn = (if n <=? I64_MAX then n else n - TWO64).
Definition sound_entry (data : list Z) (o : Z) : Prop := entry_fits data o /\ 16 <= entry_len data o.

(** What a user sees of the tree whose root node's entries start at [o] of [data] and end at [stop], as [listing], if nodes may be unreadable:
    [lost vcn x] says that the node [vcn] may have failed with the error [x]. One error stands for the entries below an unreadable node
    and also for the entry that refers to it; everything else is listed. *)
Inductive holed (child : Z -> list Z -> Prop) (lost : Z -> err -> Prop) : list Z -> Z -> Z -> list (res (list Z)) -> Prop :=
| ho_end data stop o : stop <= o -> holed child lost data stop o []
| ho_last data stop o l : o < stop -> sound_entry data o -> entry_is_last data o = true ->
    subholed child lost data o l -> holed child lost data stop o l
| ho_entry data stop o l1 l2 : o < stop -> sound_entry data o -> entry_is_last data o = false ->
    subholed child lost data o l1 -> holed child lost data stop (o + entry_len data o) l2 ->
    holed child lost data stop o (l1 ++ Ok (entry_bytes data o) :: l2)
| ho_last_lost data stop o vcn x : o < stop -> sound_entry data o -> entry_is_last data o = true ->
    points_to data o vcn -> lost vcn x -> holed child lost data stop o [Err x]
| ho_entry_lost data stop o vcn x l2 : o < stop -> sound_entry data o -> entry_is_last data o = false ->
    points_to data o vcn -> lost vcn x -> holed child lost data stop (o + entry_len data o) l2 ->
    holed child lost data stop o (Err x :: l2)
with subholed (child : Z -> list Z -> Prop) (lost : Z -> err -> Prop) : list Z -> Z -> list (res (list Z)) -> Prop :=
| sh_none data o : entry_has_subnode data o = false -> subholed child lost data o []
| sh_node data o vcn data' l : points_to data o vcn -> child vcn data' ->
    holed child lost data' (24 + field 4 data' 28) (24 + field 4 data' 24) l -> subholed child lost data o l.

(** [r] is the list [l] in which some stretches are replaced by one error each. *)
Inductive gapped {X} : list X -> list (res X) -> Prop :=
| ga_end : gapped [] []
| ga_item x l r : gapped l r -> gapped (x :: l) (Ok x :: r)
| ga_gap gap l e r : gapped l r -> gapped (gap ++ l) (Err e :: r).
(** How many errors there are. *)
Definition errors {X} (r : list (res X)) : nat := length (filter (fun x => match x with Err _ => true | _ => false end) r).

(** Why a node is missing: a call to the device has failed, or there is no valid index record with that number (damaged: torn, outside of the
    allocation, or of another number). *)
Definition device_lost (d : dev) (vcn : Z) (x : err) : Prop := exists k, reports d k /\ x = EIo k.
Definition damaged (child : Z -> list Z -> Prop) (vcn : Z) : Prop := forall data, ~ child vcn data.

(** What an item of the iteration shows: an error, or the bytes of the entry. *)
Definition seen (r : res Index.ientry) : res (list Z) := match r with Ok e => Ok (Index.ie_slice e) | Err x => Err x | Panic => Panic | OutOfFuel => OutOfFuel end.
