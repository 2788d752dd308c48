(** * Specification for C78: how often the reader is positioned. *)
From Verif Require Import Base Dev Spec SpecIndex.

(** From [d] to [d'] at most [k] seeks have been made: of the answers prepared for them no more are used up. (Reads only follow on seeks, C75.) *)
Definition seeks_within (k : nat) (d d' : dev) : Prop := exists j, (j <= k)%nat /\ d_seeks d' = skipn j (d_seeks d).

(** The number of extents that are on the device (the others are holes) and have some of the bytes from [a] up to [b]; the first one starts at byte 0. *)
Fixpoint touched (cs : Z) (l : list extent) (a b : Z) : nat :=
  match l with
  | [] => 0%nat
  | e :: t =>
      let size := e_count e * cs in
      let here : nat := match e_lcn e with Some _ => if (a <? b) && (a <? size) && (0 <? b) then 1%nat else 0%nat | None => 0%nat end in
      (here + touched cs t (a - size) (b - size))%nat
  end.
(** The read calls from [d] to [d'] whose answer was prepared (bytes that may be fewer than asked for, or an error); reads behind the prepared ones are complete. *)
Definition short_reads (d d' : dev) : nat := (length (d_reads d) - length (d_reads d'))%nat.

(** The index records below the root are on at most [h] levels: they can be numbered such that the references go to lower levels, all below [h]. *)
Definition levels (child : Z -> list Z -> Prop) (root : list Z) (h : nat) : Prop := exists level : Z -> nat,
  (forall offs e o vcn, node_walk root (zlen root) 0 offs e -> In o offs -> refers root o vcn -> (level vcn < h)%nat) /\
  forall vcn data offs e o vcn', child vcn data -> node_walk data (24 + field 4 data 28) (24 + field 4 data 24) offs e -> In o offs -> refers data o vcn' ->
    (level vcn' < level vcn)%nat.
(** The numbers of the index records that the entries at [offs] refer to. *)
Definition refs (data : list Z) (offs : list Z) : list Z :=
  map (fun o => field 8 data (o + entry_len data o - 8)) (filter (fun o => entry_has_subnode data o && (24 <=? entry_len data o)) offs).
(** From the root at most [k] index records are reached, each counted as often as it is referred to: [size] bounds the number of records reached from a record, that record included. *)
Definition records_within (child : Z -> list Z -> Prop) (root : list Z) (k : nat) : Prop := exists size : Z -> nat,
  (forall vcn, (1 <= size vcn)%nat) /\
  (forall vcn data offs e, child vcn data -> node_walk data (24 + field 4 data 28) (24 + field 4 data 24) offs e -> (1 + list_sum (map size (refs data offs)) <= size vcn)%nat) /\
  forall offs e, node_walk root (zlen root) 0 offs e -> (list_sum (map size (refs root offs)) <= k)%nat.
(** Each index record (of the size that [root] gives) lies in at most [c] extents of the $INDEX_ALLOCATION attribute of the file record [data]. *)
Definition record_pieces (cs : Z) (data offs root : list Z) (c : nat) : Prop := forall o l vcn,
  first_match data offs 160 I30 o -> encodes 0 l (slice data (o + field 2 data (o + 32)) (o + attr_len_at data o)) -> 0 <= vcn ->
  (touched cs l (vcn * cs) (vcn * cs + root_record_size root)%Z <= c)%nat.
