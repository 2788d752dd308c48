(** * Directory operations on arbitrary index contents. *)
From Verif Require Import Base Dev Types Record DataRuns DataRunsProofs Stream NonResident Resident Attribute File Structured AttrList Upcase Index
  Spec SpecValues SpecIndex BaseProofs DevProofs StreamProofs ReaderProofs ResidentProofs NonResidentProofs AttributeProofs FileProofs StructuredProofs
  ValueProofs AttrListProofs NodeProofs RecordProofs IndexRecordProofs IndexProofs IndexTotalProofs DirectoryProofs.

(** ** Opening the index *)
Lemma ir_new_returns root p : bytes_ok root -> returns (ir_new root p) /\
  forall r, ir_new root p = Ok r -> r = mkIR root p /\ 32 <= zlen root /\ 16 + field 4 root 16 < zlen root /\ 16 + field 4 root 20 <= zlen root.
Proof.
  intros Hb. unfold ir_new. destruct (zlen root <? 32) eqn:E; [split; [exact Logic.I|discriminate]|].
  unfold ir_range, ir_entries_offset, ir_data_size, rd_u32. cbn [ir_slice]. rewrite !rd_in by lia. cbn [rbind].
  destruct (zlen root <=? 16 + field 4 root 16) eqn:E1; [split; [exact Logic.I|discriminate]|].
  destruct (zlen root <? 16 + field 4 root 20) eqn:E2; [split; [exact Logic.I|discriminate]|].
  split; [exact Logic.I|]. intros r [= <-]. split; auto. lia.
Qed.
(** [entries] and [entry_ranges] of a root value panic exactly if its entries end before they start. *)
Lemma ir_entries_panic root p r : bytes_ok root -> ir_new root p = Ok r ->
  (field 4 root 16 <= field 4 root 20 -> returns (ir_entries r) /\ returns (ir_entry_ranges r)) /\
  (field 4 root 20 < field 4 root 16 -> ir_entries r = Panic /\ ir_entry_ranges r = Panic).
Proof.
  intros Hb E. destruct (proj2 (ir_new_returns root p Hb) r E) as (-> & H1 & H2 & H3).
  unfold ir_entries, ir_entry_ranges, ir_range, ir_entries_offset, ir_data_size, rd_u32. cbn [ir_slice]. rewrite !rd_in by lia. cbn [rbind].
  pose proof (field4_bound root 16 Hb). unfold idx_range. split; intros H4.
  - rewrite get_range_in by lia. cbn [rbind]. split; exact Logic.I.
  - rewrite (proj2 (get_range_none root (16 + field 4 root 16) (16 + field 4 root 20))) by lia. split; reflexivity.
Qed.

Lemma attr_index_root_returns f o e : bytes_ok (f_data f) -> 0 <= o -> attr_fits (f_data f) o -> o + 22 <= zlen (f_data f) ->
  returns (attr_index_root (mkAttr f o e)) /\
  forall r, attr_index_root (mkAttr f o e) = Ok r -> attr_type_at (f_data f) o = 144 /\ attr_value_at (f_data f) o (ir_slice r) /\ ir_new (ir_slice r) (ir_position r) = Ok r.
Proof.
  intros Hb Ho Hf Hl. unfold attr_index_root, attr_resident_structured, attr_ensure_ty.
  destruct (attr_ty_spec f o e Ho Hf) as (T1 & T2).
  destruct (attr_basic_returns f Hb o e Ho Hf) as (_ & _ & (b & Er & _) & _).
  assert (Hty : (type_known (attr_type_at (f_data f) o) \/ ~ type_known (attr_type_at (f_data f) o))) by (unfold type_known; match goal with |- In ?x ?l \/ _ => destruct (in_dec Z.eq_dec x l); auto end).
  destruct Hty as [Hk|Hk]; [rewrite (T1 Hk)|rewrite (T2 Hk)]; cbn [rbind]; [|split; [exact Logic.I|discriminate]].
  destruct (attr_type_at (f_data f) o =? TY_IndexRoot) eqn:E; cbn [rbind]; [|split; [exact Logic.I|discriminate]].
  rewrite Er. cbn [rbind]. destruct b; [|split; [exact Logic.I|discriminate]].
  destruct (attr_resident_value_spec f Hb o e Ho Hf Hl) as [(bs & Ev & Hv)|(x & Ev & _)]; rewrite Ev; cbn [rbind]; [|split; [exact Logic.I|discriminate]].
  cbn [rv_data res_new]. destruct (resident_len_bound f o bs Hb Ho Hf Hv) as (_ & Hbs).
  destruct (ir_new_returns bs (res_data_position (res_new bs (pos_add (f_position f) o))) Hbs) as (K1 & K2). split; auto.
  intros r Hr. destruct (K2 r Hr) as (-> & _). cbn [ir_slice ir_position]. unfold TY_IndexRoot in E. split; [lia|]. auto.
Qed.

Lemma directory_index_returns fuel nt f offs clean d : bytes_ok (f_data f) -> 24 <= zlen (f_data f) -> attr_walk (f_data f) (field 2 (f_data f) 20) offs clean ->
  no_attribute_list (f_data f) offs -> (length offs < fuel)%nat -> (forall o, In o offs -> o + 22 <= zlen (f_data f)) -> roots_ordered (f_data f) offs ->
  exists r, directory_index fuel nt f d = (d, r) /\ returns r.
Proof.
  intros Hb Hl W Hno Hfu H22 Hord. assert (Hs : 0 <= field 2 (f_data f) 20) by (apply field_nonneg; auto).
  unfold directory_index. unfold mbind at 1, mlift at 1. unfold f_is_directory, f_flags, rd_u16. rewrite rd_in by lia. cbn [rbind].
  destruct (negb _); [eexists; split; [reflexivity|exact Logic.I]|].
  assert (Hfind : forall ty nm, exists r, find_attribute fuel nt f ty nm d = (d, r) /\
    ((exists x, r = Err x) \/ exists o, r = Ok (mkItem f None o None) /\ In o offs /\ 0 <= o /\ attr_fits (f_data f) o)).
  { intros ty nm. rewrite (find_attribute_spec nt f ty nm offs clean Hb ltac:(lia) W Hno fuel d Hfu).
    pose proof (lookup_first f ty nm None offs clean Hb ltac:(lia) W) as K. destruct (find_resident_attribute f ty nm None) as [a|x| |]; try tauto; cbn [rbind].
    - destruct K as (l1 & o & l2 & -> & -> & _). eexists. split; [reflexivity|]. right. exists o. split; [reflexivity|]. split; [apply in_elt|]. eapply walk_fits; eauto.
    - eexists. split; [reflexivity|]. eauto. }
  assert (Hta : forall o, 0 <= o -> attr_fits (f_data f) o -> item_to_attribute (mkItem f None o None) = Ok (mkAttr f o None)).
  { intros o Ho Hf. unfold item_to_attribute. cbn [ai_value_file ai_file ai_offset ai_entries]. exact (proj1 (attr_new_spec f o None Ho) Hf). }
  assert (Hens : forall o ty, 0 <= o -> attr_fits (f_data f) o -> returns (attr_ensure_ty (mkAttr f o None) ty)).
  { intros o ty Ho Hf. unfold attr_ensure_ty. destruct (attr_basic_returns f Hb o None Ho Hf) as (_ & _ & _ & _ & _ & _ & Hty & _).
    destruct (attr_ty _) as [t|x| |]; cbn [rbind returns] in *; auto. destruct (t =? ty); exact Logic.I. }
  unfold mbind at 1. destruct (Hfind TY_IndexRoot (Some DIRECTORY_INDEX_NAME)) as (r & E & [(x & ->)|(o & -> & Hi & Ho & Hf)]); rewrite E; [eexists; split; [reflexivity|exact Logic.I]|].
  unfold mbind at 1, mlift at 1. rewrite (Hta o Ho Hf). unfold mbind at 1, mlift at 1.
  destruct (attr_index_root_returns f o None Hb Ho Hf (H22 o Hi)) as (K1 & K2). destruct (attr_index_root (mkAttr f o None)) as [ir|x| |] eqn:Eir; try (now destruct K1); [|eexists; split; [reflexivity|exact Logic.I]].
  destruct (K2 ir eq_refl) as (Ht & Hv & Hnew). destruct (resident_len_bound f o _ Hb Ho Hf Hv) as (_ & Hrb).
  destruct (proj2 (ir_new_returns (ir_slice ir) (ir_position ir) Hrb) _ Hnew) as (_ & Hz & _).
  destruct (proj1 (ir_entries_panic _ _ _ Hrb Hnew) (Hord o (ir_slice ir) Hi Ht Hv Hz)) as (_ & Hrg).
  unfold mbind at 1, mlift at 1. unfold ir_is_large at 1, rd_u8. rewrite rd_in by lia. cbn [rbind].
  assert (Hix : forall i, (i = None \/ exists o2, i = Some (mkItem f None o2 None) /\ 0 <= o2 /\ attr_fits (f_data f) o2) -> returns (index_new (mkItem f None o None) i)).
  { intros i Hcase. unfold index_new. rewrite (Hta o Ho Hf). cbn [rbind]. pose proof (Hens o TY_IndexRoot Ho Hf) as He. destruct (attr_ensure_ty _ _) as [[]|x| |]; try (now destruct He); cbn [rbind].
    rewrite Eir. cbn [rbind].
    assert (Hal : returns (match i with Some i => let? a := item_to_attribute i in attr_ensure_ty a TY_IndexAllocation
      | None => let? large := ir_is_large ir in if (large : bool) then Err (EMissingIndexAllocation (ir_position ir)) else Ok tt end)).
    { destruct Hcase as [->|(o2 & -> & Ho2 & Hf2)].
      - unfold ir_is_large, rd_u8. rewrite rd_in by lia. cbn [rbind]. destruct (Z.testbit _ _); exact Logic.I.
      - rewrite (Hta o2 Ho2 Hf2). cbn [rbind]. now apply Hens. }
    destruct (match i with Some _ => _ | None => _ end) as [[]|x| |]; try (now destruct Hal); cbn [rbind].
    unfold ir_record_size, rd_u32. rewrite rd_in by lia. cbn [rbind]. destruct (ir_entry_ranges ir); try (now destruct Hrg). }
  unfold mbind at 1. destruct (Z.testbit _ _).
  - unfold mbind at 1. destruct (Hfind TY_IndexAllocation (Some DIRECTORY_INDEX_NAME)) as (r & E2 & [(x & ->)|(o2 & -> & Hi2 & Ho2 & Hf2)]); rewrite E2; [eexists; split; [reflexivity|exact Logic.I]|].
    unfold mret, mlift. eexists. split; [reflexivity|]. apply Hix. right. eauto.
  - unfold mret, mlift. eexists. split; [reflexivity|]. apply Hix. auto.
Qed.

(** ** Iteration and lookup *)
Lemma irec_of_bytes_fuel prot p : bytes_ok prot -> 36 <= zlen prot <= U16_MAX -> irec_of_bytes prot p <> OutOfFuel.
Proof.
  intros Hb Hl. unfold irec_of_bytes, irec_validate_signature, rec_signature, idx_range. cbn [rec_data rec_position]. rewrite get_range_in by lia. cbn [rbind].
  destruct (list_eqb _ _); cbn [rbind]; [|discriminate]. pose proof (fixup_outcome prot p Hb ltac:(lia)) as Ho.
  destruct (fixup (mkRecord prot p)) as [r' [[]|x| |]]; try discriminate; [|cbn in Ho; tauto].
  unfold irec_validate_sizes, irec_allocated_size, irec_data_size, rd_u32.
  destruct (rd_cases 4 (rec_data r') 32) as [H|H]; rewrite H; cbn [rbind]; [discriminate|].
  destruct (_ <? _); cbn [rbind]; [discriminate|]. destruct (_ <? _); cbn [rbind]; [discriminate|].
  destruct (rd_cases 4 (rec_data r') 28) as [H'|H']; rewrite H'; cbn [rbind]; [discriminate|].
  destruct (_ <? _); cbn [rbind]; [discriminate|]. destruct (_ <? _); cbn [rbind]; discriminate.
Qed.

Section DirTotal.
  Context (nt : ntfs) (img : list Z) (f : file) (offs : list Z) (clean : bool) (root alloc : list Z).
  Context (Hib : bytes_ok img) (Hb : bytes_ok (f_data f)) (Hl : 24 <= zlen (f_data f))
    (W : attr_walk (f_data f) (field 2 (f_data f) 20) offs clean) (Hno : no_attribute_list (f_data f) offs)
    (Hcs : 1 <= cluster_size nt)
    (D : is_directory (cluster_size nt) img (f_data f) offs root alloc)
    (Hclear : arrays_clear (cluster_size nt) (root_record_size root) alloc).
  Let gd := good img true.
  Let child := index_child (cluster_size nt) root alloc.
  Context (pan : bool) (Hsz : pan = false -> sizes_small (cluster_size nt) (root_record_size root) alloc).

  Lemma dir_sub_total ix vcn d : dir_ix nt img f root alloc ix -> gd d -> exists d' r, index_subnode 0 nt ix vcn d = (d', r) /\ gd d' /\ fine pan r /\
    forall g, r = Ok g -> 0 <= vcn /\ exists data p, child vcn data /\ g = mkRanges data (24 + field 4 data 24) (24 + field 4 data 28) p.
  Proof.
    intros (q & Hroot & Hsize & Hal) Hg. unfold index_subnode. unfold mbind at 1, mlift at 1. destruct (root_is_large root) eqn:El.
    2: { rewrite Hal. do 2 eexists. split; [reflexivity|]. split; auto. split; [exact Logic.I|discriminate]. }
    destruct Hal as (o & l & Eal & Ho & Hf & Hty & Hr & H56 & Hro & Hv & He & Hs & Ha).
    destruct (alloc_value nt img f alloc Hb o l Ho Hf Hr H56 Hro Hv He Hs Ha) as (v & I & _ & Ev & Eia & HI & Hp & Hlen & R). rewrite Eal.
    unfold mbind at 1, mlift at 1. unfold item_to_attribute. cbn [ai_value_file ai_file ai_offset ai_entries]. rewrite (proj1 (attr_new_spec f o None Ho) Hf).
    unfold mbind at 1, mlift at 1. rewrite (type_known_ty f o None TY_IndexAllocation) by (auto; unfold type_known; cbn; tauto).
    unfold mbind at 1. rewrite Ev. unfold mbind at 1, mlift at 1. rewrite Eia. rewrite Hsize.
    pose proof (dir_record_size _ _ _ _ _ _ D El) as Hrs. set (size := root_record_size root) in *. set (cs := cluster_size nt) in *.
    pose proof (alloc_bytes_ok nt img f offs root alloc Hib D) as Hab.
    destruct (record_from_vcn_spec nt 0 I gd alloc size (R 0%nat) Hlen Hrs v d vcn HI Hp Hg) as (d' & r & Hg' & E & H1 & H2 & H3 & H4 & H5). cbn zeta in *. fold cs in H1, H2, H3, H4, H5.
    unfold mbind at 1. rewrite E.
    assert (Hfine : fine pan r).
    { destruct (Z_lt_le_dec (vcn * cs) I64_MIN); [rewrite H1 by lia; exact Logic.I|]. destruct (Z_lt_le_dec I64_MAX (vcn * cs)); [rewrite H1 by lia; exact Logic.I|].
      destruct (Z_lt_le_dec (vcn * cs) 0); [rewrite H2 by lia; exact Logic.I|]. destruct (Z_le_gt_dec (zlen alloc) (vcn * cs)); [rewrite H3 by lia; exact Logic.I|].
      destruct (Z_lt_le_dec (zlen alloc) (vcn * cs + size)) as [|Hin]; [rewrite H4 by lia; exact Logic.I|].
      destruct (H5 ltac:(lia) ltac:(lia)) as (p & ->). set (prot := slice alloc _ _) in *.
      assert (Hpb : bytes_ok prot) by (now apply bytes_ok_slice). assert (Hpl : zlen prot = size) by (unfold prot; rewrite slice_len; lia).
      assert (Hx : fine pan (irec_of_bytes prot p) /\ forall x, irec_of_bytes prot p = Ok x -> zlen (rec_data x) = size).
      { split.
        - destruct pan eqn:Ep.
          + pose proof (irec_of_bytes_fuel prot p Hpb ltac:(lia)) as Hof. destruct (irec_of_bytes prot p); cbn; auto.
          + destruct (Hsz eq_refl vcn ltac:(lia) Hin) as (S1 & S2). fold cs in S1, S2.
            pose proof (irec_of_bytes_returns prot p Hpb ltac:(lia)) as Hret. 
            assert (F1 : field 4 prot 28 = field 4 alloc (vcn * cs + 28)) by (unfold prot; apply field_slice; lia).
            assert (F2 : field 4 prot 32 = field 4 alloc (vcn * cs + 32)) by (unfold prot; apply field_slice; lia).
            rewrite F1, F2 in Hret. specialize (Hret S2 S1). destruct (irec_of_bytes prot p); cbn in *; tauto.
        - intros x Ex. specialize (Hclear vcn ltac:(lia) Hin). destruct (proj1 (irec_of_bytes_spec prot p Hpb ltac:(lia) Hclear x) Ex) as (data & -> & Hst & _).
          cbn [rec_data]. pose proof (st_len _ _ Hst). lia. }
      destruct Hx as (Hx1 & Hx2). destruct (irec_of_bytes prot p) as [x|y| |]; cbn [rbind] in *; auto.
      unfold irec_vcn, rd_u64. pose proof (Hx2 x eq_refl) as Hx3; rewrite rd_in by lia. cbn [rbind]. destruct (_ =? vcn); exact Logic.I. }
    destruct r as [r|y| |]; unfold mlift; try (do 2 eexists; split; [reflexivity|]; split; [auto|]; split; [exact Hfine|discriminate]).
    destruct (record_from_vcn_inv nt 0 I gd alloc size (R 0%nat) Hlen Hab Hcs Hrs v d d' vcn r HI Hp Hg (Hclear vcn) E) as (_ & Hm & Hrec).
    pose proof (ir_inside _ _ _ _ _ Hrec) as (Hin1 & Hin2). specialize (Hclear vcn Hin1 Hin2).
    unfold irec_entry_ranges, irec_range, irec_entries_offset, irec_data_size, rd_u32.
    pose proof (st_len _ _ (ir_stored _ _ _ _ _ Hrec)) as Hz. rewrite slice_len in Hz by lia. rewrite !rd_in by lia. cbn [rbind].
    do 2 eexists. split; [reflexivity|]. split; auto. split; [exact Logic.I|]. intros g [= <-]. split; [unfold cs in *; nia|].
    exists (rec_data r). eexists. split; [|reflexivity]. split; auto.
  Qed.

  Lemma dir_child_total vcn data : child vcn data -> bytes_ok data /\ 24 + field 4 data 28 <= zlen data /\ (Z.to_nat (zlen data) < Z.to_nat U16_MAX + 1)%nat.
  Proof.
    intros Hc. destruct (dir_child_ok nt img f offs root alloc Hib D vcn data Hc) as (H1 & H2). split; auto. split; auto.
    pose proof (dir_large nt img f offs clean root alloc Hb Hl W D vcn data Hc) as El. pose proof (dir_record_size _ _ _ _ _ _ D El) as Hrs.
    destruct Hc as (Hrec & _). pose proof (ir_inside _ _ _ _ _ Hrec) as (Hin1 & Hin2). pose proof (st_len _ _ (ir_stored _ _ _ _ _ Hrec)) as Hz.
    rewrite slice_len in Hz by lia. unfold U16_MAX in *. lia.
  Qed.

  Context (Hac : acyclic child) (Hshort : pan = false -> no_short_entry child (root_entries root)).

  Lemma root_node rank ix : dir_ix nt img f root alloc ix -> exists n, node pan child (Z.to_nat U16_MAX + 1) rank (ix_root ix) n.
  Proof.
    intros (q & Hroot & _). rewrite Hroot.
    assert (Hrb : bytes_ok (root_entries root)) by (apply bytes_ok_slice; eapply root_bytes_ok; eauto).
    destruct (node_walk_exists (root_entries root) (zlen (root_entries root)) Hrb ltac:(lia) 0 ltac:(lia)) as (l & e & Wk).
    destruct (root_rank child rank (root_entries root) l) as (r & Hr).
    eexists. exists r, l, e. cbn [rg_data rg_start rg_end]. split; auto. split; [lia|]. split; [lia|]. split; auto.
    split; [intros Hp; destruct (Hshort Hp) as (K & _); eapply K; eauto|]. split; [exact Hr|reflexivity].
  Qed.

  Lemma directory_iterate_total ix d : dir_ix nt img f root alloc ix -> gd d -> exists N, forall fuel n, (N <= fuel)%nat ->
    Forall (fine_item pan) (iterate (with_dev (entries_next fuel nt ix)) n (index_entries ix, d)).
  Proof.
    intros Hix Hg. destruct Hac as (rank & Hrank). destruct (root_node rank ix Hix) as (n0 & Hn0).
    exists (S n0). intros fuel n Hf.
    rewrite (iterate_ext _ (with_dev (entries_loop (index_subnode 0 nt ix) fuel))).
    2: { intros [st d1]. unfold with_dev. cbn [fst snd]. unfold entries_next.
         rewrite (entries_loop_ext (index_subnode fuel nt ix) (index_subnode 0 nt ix)); auto. intros. eapply subnode_fuel; eauto. }
    eapply (iterate_total pan (index_subnode 0 nt ix) gd child (Z.to_nat U16_MAX + 1) dir_child_total (fun vcn d' => dir_sub_total ix vcn d' Hix) rank Hrank); eauto.
    - intros Hp. apply (Hshort Hp).
    - cbn. constructor. exact Hn0.
  Qed.

  Lemma directory_find_total {K} (kp : list Z -> position -> res K) cmp ix d : (forall s p, fine pan (kp s p)) -> (forall k, fine pan (cmp k)) ->
    dir_ix nt img f root alloc ix -> gd d -> exists N, forall fuel, (N <= fuel)%nat -> fine_item pan (snd (index_find kp cmp fuel nt ix d)).
  Proof.
    intros Hkp Hcmp Hix Hg. destruct Hac as (rank & Hrank). destruct (root_node rank ix Hix) as (n0 & Hn0).
    exists (S n0). intros fuel Hf. unfold index_find.
    rewrite (find_loop_ext kp cmp (index_subnode fuel nt ix) (index_subnode 0 nt ix)) by (intros; eapply subnode_fuel; eauto).
    destruct (find_total pan (index_subnode 0 nt ix) gd child (Z.to_nat U16_MAX + 1) dir_child_total (fun vcn d' => dir_sub_total ix vcn d' Hix) rank Hrank) 
      with (K := K) (kp := kp) (cmp := cmp) (f := fuel) (g := ix_root ix) (d := d) (n := n0) as (d' & x & E & _ & Hx); auto.
    - intros Hp. apply (Hshort Hp).
    - rewrite E. exact Hx.
  Qed.
End DirTotal.
