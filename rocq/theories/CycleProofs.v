(** * Index records that refer to themselves: iteration and lookup do not come back. *)
From Verif Require Import Base Dev Types Record DataRuns Stream NonResident Resident Attribute File Structured AttrList Upcase Index
  Spec SpecIndex BaseProofs StructuredProofs NodeProofs IndexProofs.

(** The entries at [o] start with a last entry that refers to record [vcn]. *)
Definition descends (data : list Z) (stop o vcn : Z) : Prop :=
  o < stop /\ entry_fits data o /\ entry_is_last data o = true /\ refers data o vcn /\ vcn <= I64_MAX.

Section Cycle.
  Context (sub : Z -> M ranges) (good : dev -> Prop) (v : Z) (node : list Z).
  Context (Hsub : forall d, good d -> exists d' p, sub v d = (d', Ok (mkRanges node (24 + field 4 node 24) (24 + field 4 node 28) p)) /\ good d').
  Context (Hnb : bytes_ok node) (Hns : 24 + field 4 node 28 <= zlen node) (Hd : descends node (24 + field 4 node 28) (24 + field 4 node 24) v).

  Lemma cycle_iterate : forall fuel data stop o p below fs d, bytes_ok data -> stop <= zlen data -> 0 <= o -> descends data stop o v -> good d ->
    exists d' st, entries_loop sub fuel (mkIEs (mkRanges data o stop p :: below) fs) d = (d', (st, Some OutOfFuel)).
  Proof.
    induction fuel as [|fuel IH]; intros data stop o p below fs d Hb Hs Ho (Hlt & Hf & Hlast & (Hhs & H24 & Hvcn) & Hi) Hg; [cbn; eauto|].
    destruct (ranges_next_spec data Hb stop Hs o p Ho) as (_ & _ & _ & Hn). specialize (Hn Hlt Hf ltac:(lia)). rewrite Hlast in Hn.
    assert (Hl : 16 <= entry_len data o) by lia.
    cbn [entries_loop es_iters es_following]. rewrite Hn. cbn [rg_data].
    rewrite (er_to_entry_ok data o p Ho Hf Hl). cbn [rbind]. rewrite (entry_last_ok data Hb o p Ho Hf Hl), Hlast. cbn [rbind].
    rewrite (entry_subnode_vcn data Hb o p Ho Hf Hl v Hhs H24 Hvcn Hi).
    destruct (Hsub d Hg) as (d1 & p1 & E & Hg1). rewrite E. apply IH; auto. pose proof (field4_bound node 24 Hnb). lia.
  Qed.

  Lemma cycle_find {K} (kp : list Z -> position -> res K) cmp : forall fuel data stop o p d, bytes_ok data -> stop <= zlen data -> 0 <= o -> descends data stop o v -> good d ->
    exists d', find_loop kp cmp sub fuel (mkRanges data o stop p) d = (d', Some OutOfFuel).
  Proof.
    induction fuel as [|fuel IH]; intros data stop o p d Hb Hs Ho (Hlt & Hf & Hlast & (Hhs & H24 & Hvcn) & Hi) Hg; [cbn; eauto|].
    destruct (ranges_next_spec data Hb stop Hs o p Ho) as (_ & _ & _ & Hn). specialize (Hn Hlt Hf ltac:(lia)). rewrite Hlast in Hn.
    assert (Hl : 16 <= entry_len data o) by lia.
    cbn [find_loop]. rewrite Hn. cbn [rg_data].
    rewrite (er_to_entry_ok data o p Ho Hf Hl). rewrite (entry_key_last data Hb o p Ho Hf Hl kp Hlast).
    rewrite (entry_subnode_vcn data Hb o p Ho Hf Hl v Hhs H24 Hvcn Hi).
    destruct (Hsub d Hg) as (d1 & p1 & E & Hg1). rewrite E. apply IH; auto. pose proof (field4_bound node 24 Hnb). lia.
  Qed.
End Cycle.
