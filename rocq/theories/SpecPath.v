(** * Specification of the nodes that a lookup depends on. *)
From Verif Require Import Base Dev Types Spec SpecIndex SpecMisc SpecFaults SpecHoled.
From Verif Require Index.

(** A way down an index, from a node whose entries start at [start] of [data] and end at [stop]: the numbers of index records, each of which an entry
    of the node before refers to. So it has one node per level of the index. *)
Inductive way_down (child : Z -> list Z -> Prop) : list Z -> Z -> Z -> list Z -> Prop :=
| wd_stop data stop start : way_down child data stop start []
| wd_down data stop start offs e o vcn data' way : node_walk data stop start offs e -> In o offs -> refers data o vcn -> child vcn data' ->
    way_down child data' (24 + field 4 data' 28) (24 + field 4 data' 24) way -> way_down child data stop start (vcn :: way).

(** The records [way] of the index with the allocation [now] are what they were in [before]. *)
Definition same_on (cs : Z) (root before now way : list Z) : Prop :=
  forall vcn data, In vcn way -> index_child cs root before vcn data -> index_child cs root now vcn data.
(** Each of them is what it was, or damaged. *)
Definition same_or_damaged_on (cs : Z) (root before now way : list Z) : Prop :=
  forall vcn, In vcn way -> (forall data, index_child cs root before vcn data -> index_child cs root now vcn data) \/ damaged (index_child cs root now) vcn.

(** The right answer of a lookup in a directory with the entries [l], where [c e] is how what is searched compares to [e]: an entry that compares equal,
    [None] only if there is none; errors only if they are [excused]; never a panic. *)
Definition answer_ok (c : list Z -> comparison) (l : list (list Z)) (r : item Index.ientry) (excused : err -> Prop) : Prop :=
  match r with
  | Some (Ok e) => In (Index.ie_slice e) l /\ c (Index.ie_slice e) = Eq
  | None => Forall (fun e => c e <> Eq) l
  | Some (Err x) => excused x
  | _ => False
  end.
(** Likewise for a lookup by name, with the upcase table [t]. *)
Definition name_answer_ok (t name : list Z) (l : list (list Z)) (r : item Index.ientry) (excused : err -> Prop) : Prop :=
  match r with
  | Some (Ok e) => In (Index.ie_slice e) l /\ exists us, named (Index.ie_slice e) us /\ upper t us = upper t name
  | None => forall e us, In e l -> named e us -> upper t us <> upper t name
  | Some (Err x) => excused x
  | _ => False
  end.
