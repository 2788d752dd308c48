(** * Directory indexes. *)
From Verif Require Import Base Dev Types Record DataRuns DataRunsProofs Stream NonResident Resident Attribute File Structured AttrList Upcase Index
  Spec SpecValues SpecIndex BaseProofs DevProofs StreamProofs ReaderProofs ResidentProofs NonResidentProofs AttributeProofs FileProofs StructuredProofs
  ValueProofs AttrListProofs NodeProofs IndexRecordProofs IndexProofs.

Lemma bytes_ok_zrepeat0 n : bytes_ok (zrepeat 0 n).
Proof. unfold zrepeat. apply Forall_forall. intros x Hx. apply repeat_spec in Hx. subst. unfold is_byte; lia. Qed.
Lemma bytes_ok_content cs img l size : bytes_ok img -> bytes_ok (file_content cs img l size).
Proof.
  intros Hb. unfold file_content. apply bytes_ok_ztake. induction l as [|e l IH]; cbn [map concat]; [constructor|]. apply bytes_ok_app. split; auto.
  unfold extent_bytes. destruct (e_lcn e); [now apply bytes_ok_slice|apply bytes_ok_zrepeat0].
Qed.

Lemma first_match_lookup f offs clean ty name o : type_known ty -> bytes_ok (f_data f) -> 22 <= zlen (f_data f) ->
  attr_walk (f_data f) (field 2 (f_data f) 20) offs clean -> first_match (f_data f) offs ty name o ->
  find_resident_attribute f ty (Some name) None = Ok (mkAttr f o None) /\ 0 <= o /\ attr_fits (f_data f) o /\ attr_type_at (f_data f) o = ty.
Proof.
  intros Hk Hb Hl W (l1 & l2 & Ho & Hl1 & Hm). split.
  - pose proof (lookup_first f ty (Some name) None offs clean Hb Hl W) as H.
    assert (Hx : forall l1' o' l2' (P : Z -> Prop), (forall x, P x -> ~ is_other (f_data f) ty (Some name) None x) ->
              offs = l1' ++ o' :: l2' -> Forall (is_other (f_data f) ty (Some name) None) l1' -> P o' -> o' = o).
    { intros l1' o' l2' P HP Ho' Hl1' Hp. rewrite Ho in Ho'. clear - Ho' Hl1 Hl1' HP Hp Hm. revert l1' Ho' Hl1'.
      induction l1 as [|x l1 IH]; intros [|y l1'] Heq H1; cbn in Heq; injection Heq as -> Heq; auto.
      - apply Forall_inv in H1. destruct (cases_exclusive (f_data f) ty (Some name) None y) as (X & _). tauto.
      - apply Forall_inv in Hl1. exfalso. exact (HP _ Hp Hl1).
      - apply (IH (Forall_inv_tail Hl1) l1' Heq (Forall_inv_tail H1)). }
    assert (Hno : ~ Forall (is_other (f_data f) ty (Some name) None) offs).
    { intros K. rewrite Forall_forall in K. specialize (K o ltac:(rewrite Ho; apply in_elt)). destruct (cases_exclusive (f_data f) ty (Some name) None o) as (X & _). tauto. }
    destruct (find_resident_attribute f ty (Some name) None) as [a|x| |]; try contradiction.
    + destruct H as (l1' & o' & l2' & E1 & -> & E2 & E3). rewrite (Hx l1' o' l2' (is_match (f_data f) ty (Some name) None)); auto.
      intros x K1 K2. destruct (cases_exclusive (f_data f) ty (Some name) None x) as (X & _). tauto.
    + exfalso. destruct H as [(_ & _ & K)|[(_ & K)|(l1' & o' & l2' & E1 & E2 & E3)]]; try tauto.
      assert (o' = o). { apply (Hx l1' o' l2' (is_malformed (f_data f) ty (Some name) None)); auto. intros y K1 K2.
        destruct (cases_exclusive (f_data f) ty (Some name) None y) as (_ & X). tauto. }
      subst o'. destruct Hm as (M1 & M2 & M3). destruct E3 as [K|(K1 & K2 & K3 & K4)].
      * apply K. now rewrite M1.
      * destruct (M3 name eq_refl) as (bs & M4 & _). exact (K4 bs M4).
  - rewrite Ho in W. destruct (walk_fits f _ _ _ _ _ W ltac:(apply field_nonneg; auto)) as (A & B). split; auto. split; auto. apply Hm.
Qed.

(** ** $INDEX_ROOT *)
Lemma attr_index_root_spec f o e root : bytes_ok (f_data f) -> 0 <= o -> attr_fits (f_data f) o -> o + 22 <= zlen (f_data f) ->
  attr_type_at (f_data f) o = 144 -> attr_resident_at (f_data f) o -> attr_value_at (f_data f) o root -> index_root_ok root ->
  exists p, attr_index_root (mkAttr f o e) = Ok (mkIR root p) /\ bytes_ok root.
Proof.
  intros Hb Ho Hf Hl Ht Hr Hv (R1 & R2 & R3 & R4). destruct (resident_len_bound f o root Hb Ho Hf Hv) as (_ & Hrb).
  unfold attr_index_root, attr_resident_structured.
  rewrite (type_known_ty f o e TY_IndexRoot) by (auto; unfold type_known; cbn; tauto). cbn [rbind].
  unfold attr_is_resident. rewrite attr_rd_in by (destruct Hf as (F1 & F2 & F3); lia). cbn [rbind]. unfold attr_resident_at in Hr. rewrite Hr. cbn [Z.eqb].
  destruct (attr_resident_value_spec f Hb o e Ho Hf Hl) as [(bs2 & E & Hv2)|(x & E & Hno)]; [|now destruct (Hno root)].
  assert (bs2 = root) by (destruct Hv as (_ & ->), Hv2 as (_ & ->); reflexivity). subst bs2. rewrite E. cbn [rbind rv_data res_new].
  eexists. split; [|exact Hrb]. unfold ir_new. replace (zlen root <? 32) with false by lia. unfold ir_range, ir_entries_offset, ir_data_size, rd_u32. cbn [ir_slice].
  rewrite !rd_in by lia. cbn [rbind]. replace (zlen root <=? 16 + field 4 root 16) with false by lia.
  replace (zlen root <? 16 + field 4 root 20) with false by lia. reflexivity.
Qed.

Lemma ir_large_spec root p : index_root_ok root -> ir_is_large (mkIR root p) = Ok (root_is_large root).
Proof. intros (R1 & _). unfold ir_is_large, rd_u8. cbn [ir_slice]. now rewrite rd_in by lia. Qed.
Lemma ir_record_size_spec root p : index_root_ok root -> ir_record_size (mkIR root p) = Ok (root_record_size root).
Proof. intros (R1 & _). unfold ir_record_size, rd_u32. cbn [ir_slice]. now rewrite rd_in by lia. Qed.
Lemma ir_entry_ranges_spec root p : bytes_ok root -> index_root_ok root -> exists q, ir_entry_ranges (mkIR root p) = Ok (mkRanges (root_entries root) 0 (zlen (root_entries root)) q).
Proof.
  intros Hb (R1 & R2 & R3 & R4). unfold ir_entry_ranges, ir_range, ir_entries_offset, ir_data_size, rd_u32. cbn [ir_slice ir_position].
  rewrite !rd_in by lia. cbn [rbind]. pose proof (field4_bound root 16 Hb). unfold idx_range. rewrite get_range_in by lia. cbn [rbind]. eexists. reflexivity.
Qed.

(** The loops depend on what reading subnodes returns only. *)
Lemma entries_loop_ext sub1 sub2 : (forall vcn d, sub1 vcn d = sub2 vcn d) -> forall f st d, entries_loop sub1 f st d = entries_loop sub2 f st d.
Proof.
  intros H. induction f as [|f IH]; intros st d; [reflexivity|]. cbn [entries_loop]. destruct (es_iters st) as [|g below]; [reflexivity|].
  destruct (ranges_next g) as [g' [[r|x| |]|]]; try reflexivity.
  - destruct (rbind _ _) as [[e last]|x| |]; try reflexivity. destruct (ie_subnode_vcn e) as [[vcn|x| |]|]; try reflexivity.
    + rewrite H. destruct (sub2 vcn d) as [d1 [sg|x| |]]; auto.
    + destruct last; auto.
  - destruct (es_following st) as [|[r|] fs]; auto.
Qed.
Lemma find_loop_ext {K} (kp : list Z -> position -> res K) cmp sub1 sub2 : (forall vcn d, sub1 vcn d = sub2 vcn d) ->
  forall f g d, find_loop kp cmp sub1 f g d = find_loop kp cmp sub2 f g d.
Proof.
  intros H. induction f as [|f IH]; intros g d; [reflexivity|]. cbn [find_loop].
  destruct (ranges_next g) as [g' [[r|x| |]|]]; try reflexivity. destruct (er_to_entry _ _) as [e|x| |]; try reflexivity.
  destruct (match ie_key kp e with Some _ => _ | None => _ end) as [[]|x| |]; auto.
  destruct (ie_subnode_vcn e) as [[vcn|x| |]|]; try reflexivity. rewrite H. destruct (sub2 vcn d) as [d1 [sg|x| |]]; auto.
Qed.
Lemma iterate_ext {S A} (f g : S -> S * item A) : (forall s, f s = g s) -> forall n s, iterate f n s = iterate g n s.
Proof. intros H. induction n as [|n IH]; intros s; [reflexivity|]. cbn [iterate]. rewrite H. destruct (g s). now rewrite IH. Qed.

(** Reading a value without attribute list does not use the fuel. *)
Lemma av_read_exact_fuel fuel : forall k s n acc d, rs_read_exact_loop (av_read fuel) k (AVSimple s) n acc d = rs_read_exact_loop (av_read 0) k (AVSimple s) n acc d.
Proof.
  induction k as [|k IH]; intros s n acc d; [reflexivity|]. cbn [rs_read_exact_loop]. destruct (n <=? 0); [reflexivity|]. cbn [av_read].
  destruct (sv_read s n d) as [d1 [s1 [[|b bs]|x| |]]]; auto. destruct x; try reflexivity. match goal with e : iokind |- _ => destruct e end; auto.
Qed.
Lemma irec_new_fuel fuel s size d : irec_new fuel (AVSimple s) size d = irec_new 0 (AVSimple s) size d.
Proof. unfold irec_new, rs_read_exact. now rewrite av_read_exact_fuel. Qed.
Lemma record_from_vcn_fuel fuel nt s size vcn d : record_from_vcn fuel nt (AVSimple s) size vcn d = record_from_vcn 0 nt (AVSimple s) size vcn d.
Proof.
  unfold record_from_vcn, mbind, mlift. destruct (vcn_offset _ _) as [off|x| |]; auto. cbn [av_seek]. destruct (sv_seek s (SCurrent off) d) as [d1 [s1 [q|x| |]]]; auto.
  destruct (_ <=? _); auto. now rewrite irec_new_fuel.
Qed.

(** ** [directory_index] *)
Section Dir.
  Context (nt : ntfs) (img : list Z) (f : file) (offs : list Z) (clean : bool) (root alloc : list Z).
  Context (Hib : bytes_ok img) (Hb : bytes_ok (f_data f)) (Hl : 24 <= zlen (f_data f))
    (W : attr_walk (f_data f) (field 2 (f_data f) 20) offs clean) (Hno : no_attribute_list (f_data f) offs)
    (Hcs : 1 <= cluster_size nt)
    (D : is_directory (cluster_size nt) img (f_data f) offs root alloc).
  Let gd := good img true.

  Definition dir_ix (ix : index) : Prop := exists q, ix_root ix = mkRanges (root_entries root) 0 (zlen (root_entries root)) q /\
      ix_record_size ix = root_record_size root /\
      (if root_is_large root
    then exists o l, ix_alloc ix = Some (mkItem f None o None) /\ 0 <= o /\ attr_fits (f_data f) o /\ attr_type_at (f_data f) o = 160 /\
      ~ attr_resident_at (f_data f) o /\ o + 56 <= zlen (f_data f) /\ field 2 (f_data f) (o + 32) <= attr_len_at (f_data f) o /\
      valid_extents (cluster_size nt) img l /\ encodes 0 l (slice (f_data f) (o + field 2 (f_data f) (o + 32)) (o + attr_len_at (f_data f) o)) /\
      field 8 (f_data f) (o + 48) <= extents_size (cluster_size nt) l /\ alloc = file_content (cluster_size nt) img l (field 8 (f_data f) (o + 48))
    else ix_alloc ix = None).

  Lemma root_bytes_ok : bytes_ok root.
  Proof.
    destruct D as [_ (o & Hm & Hr & H22 & Hv) _ _ _]. destruct (first_match_lookup f offs clean 144 I30 o) as (_ & Ho & Hf & _); auto; [unfold type_known; cbn; tauto|lia|].
    apply (resident_len_bound f o root Hb Ho Hf Hv).
  Qed.

  Lemma directory_index_ok fuel d : (length offs < fuel)%nat -> exists ix, directory_index fuel nt f d = (d, Ok ix) /\ dir_ix ix.
  Proof.
    intros Hfu. destruct D as [Hflag (o & Hm & Hr & H22 & Hv) Hrok Hal _].
    destruct (first_match_lookup f offs clean 144 I30 o ltac:(unfold type_known; cbn; tauto) Hb ltac:(lia) W Hm) as (E1 & Ho & Hf & Hty).
    destruct (attr_index_root_spec f o None root Hb Ho Hf H22 Hty Hr Hv Hrok) as (p & Eir & Hrb).
    destruct (ir_entry_ranges_spec root p Hrb Hrok) as (q & Eg).
    assert (Edir : f_is_directory f = Ok true).
    { unfold f_is_directory, f_flags, rd_u16. rewrite rd_in by lia. cbn [rbind]. rewrite flags_bit by auto. now rewrite Hflag. }
    assert (Hta : item_to_attribute (mkItem f None o None) = Ok (mkAttr f o None)).
    { unfold item_to_attribute. cbn [ai_value_file ai_file ai_offset ai_entries]. exact (proj1 (attr_new_spec f o None Ho) Hf). }
    unfold directory_index. unfold mbind at 1, mlift at 1. rewrite Edir. cbn [negb].
    unfold mbind at 1. rewrite (find_attribute_spec nt f TY_IndexRoot (Some DIRECTORY_INDEX_NAME) offs clean Hb ltac:(lia) W Hno fuel d Hfu).
    change TY_IndexRoot with 144. change DIRECTORY_INDEX_NAME with I30. rewrite E1. cbn [rbind at_offset].
    unfold mbind at 1, mlift at 1. rewrite Hta. unfold mbind at 1, mlift at 1. rewrite Eir. unfold mbind at 1, mlift at 1. rewrite (ir_large_spec root p Hrok).
    assert (Htr : attr_ensure_ty (mkAttr f o None) TY_IndexRoot = Ok tt) by (apply type_known_ty; auto; unfold type_known; cbn; tauto).
    destruct (root_is_large root) eqn:El.
    - destruct Hal as (o2 & l & Hm2 & Hr2 & H56 & Hrl & Hve & Henc & Hsz & Hac).
      destruct (first_match_lookup f offs clean 160 I30 o2 ltac:(unfold type_known; cbn; tauto) Hb ltac:(lia) W Hm2) as (E2 & Ho2 & Hf2 & Hty2).
      unfold mbind at 1. unfold mbind at 1. rewrite (find_attribute_spec nt f TY_IndexAllocation (Some I30) offs clean Hb ltac:(lia) W Hno fuel d Hfu).
      change TY_IndexAllocation with 160. rewrite E2. cbn [rbind at_offset]. unfold mret at 1. unfold mlift, index_new. rewrite Hta. cbn [rbind]. rewrite Htr. cbn [rbind]. rewrite Eir. cbn [rbind].
      unfold item_to_attribute at 1. cbn [ai_value_file ai_file ai_offset ai_entries]. rewrite (proj1 (attr_new_spec f o2 None Ho2) Hf2). cbn [rbind].
      rewrite (type_known_ty f o2 None TY_IndexAllocation) by (auto; unfold type_known; cbn; tauto). cbn [rbind].
      rewrite (ir_record_size_spec root p Hrok), Eg. cbn [rbind]. eexists. split; [reflexivity|]. exists q. cbn [ix_root ix_record_size ix_alloc]. split; auto. split; auto. rewrite El. exists o2, l. repeat (split; [assumption||reflexivity|]). assumption.
    - unfold mbind at 1, mret at 1. unfold mlift, index_new. rewrite Hta. cbn [rbind]. rewrite Htr. cbn [rbind]. rewrite Eir. cbn [rbind]. rewrite (ir_large_spec root p Hrok), El. cbn [rbind].
      rewrite (ir_record_size_spec root p Hrok), Eg. cbn [rbind]. eexists. split; [reflexivity|]. exists q. cbn [ix_root ix_record_size ix_alloc]. rewrite El. auto.
  Qed.

  Lemma alloc_value o l : 0 <= o -> attr_fits (f_data f) o -> 
      ~ attr_resident_at (f_data f) o -> o + 56 <= zlen (f_data f) -> field 2 (f_data f) (o + 32) <= attr_len_at (f_data f) o ->
      valid_extents (cluster_size nt) img l -> encodes 0 l (slice (f_data f) (o + field 2 (f_data f) (o + 32)) (o + attr_len_at (f_data f) o)) ->
      field 8 (f_data f) (o + 48) <= extents_size (cluster_size nt) l -> alloc = file_content (cluster_size nt) img l (field 8 (f_data f) (o + 48)) ->
      exists v I, (exists n, v = AVSimple (SVNr n)) /\ (forall d, attr_value nt (mkAttr f o None) d = (d, Ok v)) /\ ia_of_value v = Ok v /\ I v /\ av_stream_position v = 0 /\
        (forall w, I w -> av_len w = zlen alloc) /\ forall fuel, refines (av_read fuel) (av_seek fuel) I av_stream_position gd alloc (zlen alloc).
  Proof.
    intros Ho Hf Hr H56 Hro Hv He Hs Ha. pose proof (field8_bound (f_data f) (o + 48) Hb) as Hsz. set (size := field 8 (f_data f) (o + 48)) in *.
    set (enc := slice (f_data f) _ _) in *. set (p := pos_add (f_position f) (o + field 2 (f_data f) (o + 32))).
    destruct (nr_extents_new (cluster_size nt) img l enc p size Hv He) as (n & E & Hi & Hp & _).
    assert (Hz : zlen alloc = size) by (rewrite Ha; apply content_size; auto; lia).
    exists (AVSimple (SVNr n)). exists (fun w => exists n', w = AVSimple (SVNr n') /\ nr_inv (cluster_size nt) enc p size (map (run_of (cluster_size nt)) l) n').
    split; [eauto|]. split. { intros d. unfold attr_value. cbn [at_entries]. unfold mbind, mlift, mret. rewrite (attr_value_extents f (cluster_size nt) o None Hb Ho Hf H56 Hr Hro).
             fold enc p size. rewrite E. reflexivity. }
    split; [reflexivity|]. split; [eauto|]. split; [exact Hp|]. split.
    - intros w (n' & -> & (rest & Hn)). rewrite Hz. cbn. unfold nr_len. apply (inv_size _ _ _ _ _ _ Hn).
    - intros fuel. rewrite Hz, Ha. unfold gd. eapply (refines_map (fun n => AVSimple (SVNr n))); [apply (nr_extents_refines (cluster_size nt) img l enc p size Hv He ltac:(lia))| | |reflexivity].
      + intros s n0 d0. cbn. destruct (nr_read s n0 d0) as [? [? ?]]; reflexivity.
      + intros s sf d0. cbn. destruct (nr_seek s sf d0) as [? [? ?]]; reflexivity.
  Qed.

  Lemma alloc_bytes_ok : bytes_ok alloc.
  Proof.
    destruct D as [_ _ _ Hal _]. destruct (root_is_large root); [|rewrite Hal; constructor].
    destruct Hal as (o2 & l & _ & _ & _ & _ & _ & _ & _ & ->). now apply bytes_ok_content.
  Qed.

  Lemma dir_child_ok vcn data : index_child (cluster_size nt) root alloc vcn data -> bytes_ok data /\ 24 + field 4 data 28 <= zlen data.
  Proof.
    intros ([H1 H2 H3 H4] & _). split.
    - eapply stored_bytes_ok; [|exact H2]. apply bytes_ok_slice, alloc_bytes_ok.
    - destruct H3 as (_ & H3 & H5). lia.
  Qed.

  Lemma dir_large vcn data : index_child (cluster_size nt) root alloc vcn data -> root_is_large root = true.
  Proof.
    intros ([(H0 & H1) H2 H3 H4] & _). destruct D as [_ _ _ Hal _]. destruct (root_is_large root); auto. rewrite Hal in H1. change (zlen []) with 0 in H1.
    destruct (st_fits _ _ H2) as (F & _). pose proof root_bytes_ok. pose proof (field4_bound root 8 H). unfold root_record_size in *.
    assert (E : field 4 root 8 = 0 /\ vcn * cluster_size nt = 0) by lia. destruct E as (E1 & E2). rewrite E1, E2 in F. rewrite Hal in F. vm_compute in F. exfalso. now apply F.
  Qed.

  Lemma dir_subnode ix fuel vcn data d : dir_ix ix -> index_child (cluster_size nt) root alloc vcn data -> gd d -> exists d' p,
    index_subnode fuel nt ix vcn d = (d', Ok (mkRanges data (24 + field 4 data 24) (24 + field 4 data 28) p)) /\ gd d'.
  Proof.
    intros (q & Hroot & Hsize & Hal) Hc Hg. pose proof (dir_large vcn data Hc) as El. rewrite El in Hal.
    destruct Hal as (o & l & Eal & Ho & Hf & Hty & Hr & H56 & Hro & Hv & He & Hs & Ha).
    destruct (alloc_value o l Ho Hf Hr H56 Hro Hv He Hs Ha) as (v & I & _ & Ev & Eia & HI & Hp & Hlen & R).
    unfold index_subnode. unfold mbind at 1, mlift at 1. rewrite Eal.
    unfold mbind at 1, mlift at 1. unfold item_to_attribute. cbn [ai_value_file ai_file ai_offset ai_entries]. rewrite (proj1 (attr_new_spec f o None Ho) Hf).
    unfold mbind at 1, mlift at 1. rewrite (type_known_ty f o None TY_IndexAllocation) by (auto; unfold type_known; cbn; tauto).
    unfold mbind at 1. rewrite Ev. unfold mbind at 1, mlift at 1. rewrite Eia. rewrite Hsize.
    destruct Hc as (Hrec & Hcl & Hvcn). pose proof (dir_record_size _ _ _ _ _ _ D El) as Hrs.
    destruct (record_from_vcn_ok nt fuel I gd alloc (root_record_size root) (R fuel) Hlen alloc_bytes_ok Hcs Hrs v d vcn data HI Hp Hg Hvcn Hrec Hcl) as (d' & p & Hg' & E).
    unfold mbind. rewrite E. unfold mlift, irec_entry_ranges, irec_range, irec_entries_offset, irec_data_size, rd_u32. cbn [rec_data rec_position].
    pose proof (st_len _ _ (ir_stored _ _ _ _ _ Hrec)) as Hz. destruct (ir_inside _ _ _ _ _ Hrec). rewrite slice_len in Hz by lia.
    rewrite !rd_in by lia. cbn [rbind]. eauto.
  Qed.

  (** What is read from a value without attribute list does not depend on the fuel. *)
  Lemma subnode_fuel ix fuel vcn d : dir_ix ix -> index_subnode fuel nt ix vcn d = index_subnode 0 nt ix vcn d.
  Proof.
    intros (q & Hroot & Hsize & Hal). unfold index_subnode. unfold mbind, mlift. destruct (root_is_large root).
    - destruct Hal as (o & l & Eal & Ho & Hf & Hty & Hr & H56 & Hro & Hv & He & Hs & Ha). rewrite Eal.
      unfold item_to_attribute. cbn [ai_value_file ai_file ai_offset ai_entries]. rewrite (proj1 (attr_new_spec f o None Ho) Hf).
      destruct (attr_ensure_ty _ _); auto. destruct (alloc_value o l Ho Hf Hr H56 Hro Hv He Hs Ha) as (v & I & (n & ->) & Ev & Eia & _).
      rewrite Ev, Eia. now rewrite record_from_vcn_fuel.
    - now rewrite Hal.
  Qed.

  (** The whole iteration. *)
  Lemma directory_traverse ix l d : dir_ix ix -> gd d -> index_listing (cluster_size nt) root alloc l ->
    exists es N, map ie_slice es = l /\ forall fuel n, (N <= fuel)%nat ->
      iterate (with_dev (entries_next fuel nt ix)) (length es + n) (index_entries ix, d) = map (fun e => Some (Ok e)) es ++ repeat None n.
  Proof.
    intros Hix Hg Hli. pose proof Hix as (q & Hroot & _). unfold index_entries. rewrite Hroot.
    assert (Hrb : bytes_ok (root_entries root)) by (apply bytes_ok_slice, root_bytes_ok).
    destruct (traverse (index_subnode 0 nt ix) gd _ dir_child_ok (fun vcn data d' => dir_subnode ix 0 vcn data d' Hix) (root_entries root) _ 0 l q d Hli Hrb ltac:(lia) ltac:(lia) Hg) as (es & N & He & H).
    exists es, N. split; auto. intros fuel n Hf. rewrite <- (H fuel n Hf). apply iterate_ext. intros [st d1]. unfold with_dev. cbn [fst snd]. unfold entries_next.
    rewrite (entries_loop_ext (index_subnode fuel nt ix) (index_subnode 0 nt ix)); auto. intros. now apply subnode_fuel.
  Qed.

  (** Lookup. *)
  Lemma directory_find {K} (kp : list Z -> position -> res K) cmp c ix l d : dir_ix ix -> gd d -> index_listing (cluster_size nt) root alloc l ->
    Forall (compares kp cmp c) l -> consistent c l ->
    exists N d' r, gd d' /\ found c l r /\ forall fuel, (N <= fuel)%nat -> index_find kp cmp fuel nt ix d = (d', r).
  Proof.
    intros Hix Hg Hli Hcm Hcs'. pose proof Hix as (q & Hroot & _). unfold index_find. rewrite Hroot.
    assert (Hrb : bytes_ok (root_entries root)) by (apply bytes_ok_slice, root_bytes_ok).
    destruct (proj1 (listing_find (index_subnode 0 nt ix) gd _ dir_child_ok (fun vcn data d' => dir_subnode ix 0 vcn data d' Hix) kp cmp c) _ _ _ _ Hli Hrb ltac:(lia) ltac:(lia) Hcm Hcs' d q Hg) as (N & d' & r & Hg' & Hr & H).
    exists N, d', r. split; auto. split; auto. intros fuel Hf. rewrite <- (H fuel Hf). apply find_loop_ext. intros. now apply subnode_fuel.
  Qed.
End Dir.
