(** * Directories whose attributes are spread over several file records. *)
From Coq Require Import Lia.
From Verif Require Import Base Dev Types Record DataRuns Stream NonResident Resident Attribute File Guid Structured AttrList Upcase Index
  Spec SpecMisc SpecValues SpecIndex SpecAttrList SpecListDir BaseProofs DevProofs StreamProofs DataRunsProofs ReaderProofs ResidentProofs NonResidentProofs
  AttributeProofs FileProofs StructuredProofs ValueProofs EvolveProofs AttrListProofs NodeProofs IndexRecordProofs IndexProofs DirectoryProofs NameFindProofs
  AttrListIterProofs AttrListValueProofs FlatProofs FlatSearchProofs FaultProofs FuelProofs.

(** The search finds the first attribute that matches. *)
Lemma first_view_result {A} base views clean (hit : view -> A -> Prop) ty name v r :
  type_known ty -> search_result base views clean (fun w i => hit w i /\ at_view base (fun data o => is_match data ty (Some name) None o) w)
    (fun data o => is_other data ty (Some name) None o) (fun data o => is_malformed data ty (Some name) None o) r ->
  first_view base views ty name v -> exists i, r = Ok (Some i) /\ hit v i.
Proof.
  intros Hk H (l1 & l2 & Ho & Hl1 & Hm).
  assert (Hmo : forall w, at_view base (fun data o => is_match data ty (Some name) None o) w -> ~ at_view base (fun data o => is_other data ty (Some name) None o) w).
  { intros w. unfold at_view. destruct (view_at base w) as [[data o]|]; [|tauto]. intros K1 K2. exact (proj1 (cases_exclusive _ _ _ _ _) (conj K1 K2)). }
  assert (Hx : forall l1' w l2', ~ at_view base (fun data o => is_other data ty (Some name) None o) w ->
     views = l1' ++ w :: l2' -> Forall (at_view base (fun data o => is_other data ty (Some name) None o)) l1' -> w = v).
  { intros l1' w l2' HP Ho' Hl1'. rewrite Ho in Ho'. apply Hmo in Hm. clear - Ho' Hl1 Hl1' HP Hm. revert l1' Ho' Hl1'.
    induction l1 as [|x l1 IH]; intros [|y l1'] Heq H1; cbn in Heq; injection Heq as -> Heq; auto.
    - now apply Forall_inv in H1.
    - now apply Forall_inv in Hl1.
    - apply (IH (Forall_inv_tail Hl1) l1' Heq (Forall_inv_tail H1)). }
  assert (Hno : ~ Forall (at_view base (fun data o => is_other data ty (Some name) None o)) views).
  { intros K. rewrite Ho in K. apply Forall_app in K as (_ & K). apply Forall_inv in K. exact (Hmo v Hm K). }
  destruct r as [[i|]|x| |]; cbn [search_result] in H; try contradiction; try tauto.
  - destruct H as (l1' & w & l2' & E & Hp & (Hh & Hw)). assert (w = v) as -> by (eapply Hx; eauto). eauto.
  - exfalso. destruct H as [(_ & K)|(l1' & w & l2' & E & Hp & Hf)]; [tauto|].
    assert (Hnw : ~ at_view base (fun data o => is_other data ty (Some name) None o) w).
    { unfold at_view in *. destruct Hf as [->|Hf]; [tauto|]. destruct (view_at base w) as [[data o]|]; [|tauto]. intros K.
      exact (proj2 (cases_exclusive _ _ _ _ _) (conj K Hf)). }
    assert (w = v) as -> by (eapply Hx; eauto). unfold at_view in *. destruct (view_at base v) as [[data o]|]; [|tauto].
    destruct Hf as [?|Hf]; [discriminate|]. destruct Hm as (M1 & M2 & M3). apply Hnw. destruct Hf as [K|(K1 & K2 & K3 & K4)].
    + destruct K. now rewrite M1.
    + destruct (M3 name eq_refl) as (b & M4 & _). destruct (K4 b M4).
Qed.

Lemma first_view_unique base views ty name v v' : type_known ty -> first_view base views ty name v -> first_view base views ty name v' -> v = v'.
Proof.
  intros Hk H (l1 & l2 & E & H1 & H2).
  destruct (first_view_result base views true (fun w i => w = i) ty name v (Ok (Some v')) Hk) as (i & [= <-] & Hi); auto.
  exists l1, v', l2. auto.
Qed.

(** The size of content, if the extents come from several valid lists. *)
Lemma content_size2 cs img l size : Forall (extent_fits cs) l -> Forall (extent_on_device cs img) l -> 1 <= cs -> 0 <= size <= extents_size cs l ->
  zlen (file_content cs img l size) = size.
Proof.
  intros Hf Hd Hcs Hs. unfold file_content. rewrite zlen_ztake.
  assert (E : zlen (concat (map (extent_bytes cs img) l)) = extents_size cs l); [|lia].
  clear Hs. induction l as [|e l IH]; cbn [map concat extents_size]; [reflexivity|].
  inversion Hf as [|? ? (F1 & F2 & F3) Hft]; subst. inversion Hd as [|? ? (D1 & D2) Hdt]; subst. rewrite zlen_app, IH by auto. f_equal.
  unfold extent_bytes. destruct (e_lcn e) as [lcn|].
  - rewrite slice_len; nia.
  - rewrite zlen_zrepeat. nia.
Qed.
Lemma connected_extents img nt ml bs ty inst e offs parts : connected img nt ml bs ty inst e offs parts ->
  Forall (extent_fits (cluster_size nt)) (concat parts) /\ Forall (extent_on_device (cluster_size nt) img) (concat parts).
Proof.
  induction 1 as [| |o offs p data l parts H1 H2 H3 H4 H5 Hv H (IH1 & IH2)]; [split; constructor..|]. cbn [concat]. destruct Hv as [_ _ Hf Hd _]. split; apply Forall_app; auto.
Qed.

(** Reading subnodes from an allocation that opens as a stream of [alloc]. *)
Section Subnode.
  Context (nt : ntfs) (root alloc : list Z) (G : dev -> Prop) (K : nat) (ix : index) (i : attr_item) (a : attribute).
  Context (Hab : bytes_ok alloc) (Hcs : 1 <= cluster_size nt) (Hrs : 36 <= root_record_size root <= U16_MAX)
    (Hi : ix_alloc ix = Some i) (Hsize : ix_record_size ix = root_record_size root) (Ha : item_to_attribute i = Ok a) (Hty : attr_ensure_ty a TY_IndexAllocation = Ok tt).
  Context (Hopen : forall d, G d -> alloc <> [] -> exists d' v I, attr_value nt a d = (d', Ok v) /\ ia_of_value v = Ok v /\ G d' /\ I v /\ av_stream_position v = 0 /\
    (forall w, I w -> av_len w = zlen alloc) /\ refines (av_read K) (av_seek K) I av_stream_position G alloc (zlen alloc)).

  Lemma opened_subnode vcn data d : index_child (cluster_size nt) root alloc vcn data -> G d -> exists d' p,
    index_subnode K nt ix vcn d = (d', Ok (mkRanges data (24 + field 4 data 24) (24 + field 4 data 28) p)) /\ G d'.
  Proof.
    intros Hc Hg. pose proof Hc as (Hrec & Hcl & Hvcn). destruct (ir_inside _ _ _ _ _ Hrec) as (Hin0 & Hin1).
    destruct (Hopen d Hg) as (d1 & v & I & Ev & Eia & G1 & HI & Hp & Hlen & R). { intros ->. change (zlen []) with 0 in Hin1. lia. }
    unfold index_subnode. unfold mbind at 1, mlift at 1. rewrite Hi.
    unfold mbind at 1, mlift at 1. rewrite Ha. unfold mbind at 1, mlift at 1. rewrite Hty.
    unfold mbind at 1. rewrite Ev. unfold mbind at 1, mlift at 1. rewrite Eia. rewrite Hsize.
    destruct (record_from_vcn_ok nt K I G alloc (root_record_size root) R Hlen Hab Hcs Hrs v d1 vcn data HI Hp G1 Hvcn Hrec Hcl) as (d' & p & Hg' & E).
    unfold mbind. rewrite E. unfold mlift, irec_entry_ranges, irec_range, irec_entries_offset, irec_data_size, rd_u32. cbn [rec_data rec_position].
    pose proof (st_len _ _ (ir_stored _ _ _ _ _ Hrec)) as Hz. rewrite slice_len in Hz by lia.
    rewrite !rd_in by lia. cbn [rbind]. eauto.
  Qed.
End Subnode.

(** ** Enough fuel for subnodes *)
Lemma entries_loop_more nt ix K k st d : (K <= k)%nat -> snd (snd (entries_loop (index_subnode K nt ix) k st d)) <> Some OutOfFuel ->
  entries_loop (index_subnode k nt ix) k st d = entries_loop (index_subnode K nt ix) k st d.
Proof.
  intros Hle H. eapply fuel_outcome; [eapply entries_loop_sim; eauto with fuel; intros vcn; eapply index_subnode_sim; eauto with fuel|].
  intros (r & E & Hr). apply no_io in Hr; auto. congruence.
Qed.
Lemma find_loop_more {X} (kp : list Z -> position -> res X) cmp nt ix K k g d : (K <= k)%nat -> snd (find_loop kp cmp (index_subnode K nt ix) k g d) <> Some OutOfFuel ->
  find_loop kp cmp (index_subnode k nt ix) k g d = find_loop kp cmp (index_subnode K nt ix) k g d.
Proof.
  intros Hle H. eapply fuel_outcome; [eapply find_loop_sim; eauto with fuel; intros vcn; eapply index_subnode_sim; eauto with fuel|].
  intros (r & E & Hr). apply no_io in Hr; auto. congruence.
Qed.
Lemma iterate_more {S A} (f g : S -> S * item A) : (forall s, snd (f s) <> Some OutOfFuel -> g s = f s) -> forall n s,
  ~ In (Some OutOfFuel) (iterate f n s) -> iterate g n s = iterate f n s.
Proof.
  intros H. induction n as [|n IH]; intros s Hn; [reflexivity|]. cbn [iterate] in *. specialize (H s). destruct (f s) as [s1 x]. cbn [snd] in H.
  rewrite H; [|intros ->; apply Hn; now left]. f_equal. apply IH. intros Hin. apply Hn. now right.
Qed.

(** ** The directory *)
Section ListDir.
  Context (img : list Z) (nt : ntfs) (ml : list extent) (f : file) (before : list Z) (lo : Z) (after : list Z) (clean : bool)
    (bs offs : list Z) (e : list_end) (vs : list view) (root alloc : list Z).
  Context (Hff : file_with_list img nt ml f before lo after clean bs offs e vs).
  Notation views := (map VBase before ++ vs ++ map VBase after).
  Context (D : listed_directory img nt ml f bs e views root alloc).
  Notation gd := (good img true).
  Notation base := (f_data f).

  Lemma ld_bytes : bytes_ok bs.
  Proof.
    destruct Hff as [Hb _ Hfr Hml (Hfb & H22) Hp W Hbe Haf Hty Hc Hl Wl Hend L]. pose proof (field_nonneg 2 (f_data f) 20 Hfb) as H0.
    destruct (walk_in f _ _ _ lo W H0 ltac:(apply in_or_app; right; now left)) as (Hlo & Hfit).
    apply (flat_open img nt f lo bs offs e Hb Hfb Hlo Hfit Hp Hc Hl Wl).
  Qed.

  Definition ld_ix (ix : index) : Prop := (exists q, ix_root ix = mkRanges (root_entries root) 0 (zlen (root_entries root)) q) /\
    ix_record_size ix = root_record_size root /\
    (if root_is_large root
     then exists v i, first_view base views 160 I30 v /\ ix_alloc ix = Some i /\ item_is img nt ml bs e f v (Some (Ok i))
     else ix_alloc ix = None).

  Lemma view_facts v ty data o : first_view base views ty I30 v -> view_at base v = Some (data, o) -> bytes_ok data /\ 0 <= o /\ attr_fits data o /\ attr_type_at data o = ty.
  Proof.
    intros (v1 & v2 & E & _ & Hm) Ev. destruct (file_yields _ _ _ _ _ _ _ _ _ _ _ _ Hff) as (_ & _ & Ok0).
    rewrite E in Ok0. apply Forall_app in Ok0 as (_ & Ok0). apply Forall_inv in Ok0. destruct Ok0 as (Hv & _). unfold at_view in Hm. rewrite Ev in Hv, Hm.
    destruct Hv as (H1 & H2 & H3). splits; auto. apply Hm.
  Qed.
  Lemma view_item v ty data o i : first_view base views ty I30 v -> view_at base v = Some (data, o) -> item_is img nt ml bs e f v (Some (Ok i)) ->
    exists F l, item_to_attribute i = Ok (mkAttr F o l) /\ f_data F = data.
  Proof.
    intros (v1 & v2 & E & _ & Hm) Ev Hi. destruct (file_yields _ _ _ _ _ _ _ _ _ _ _ _ Hff) as (_ & _ & Ok0).
    rewrite E in Ok0. apply Forall_app in Ok0 as (_ & Ok0). apply Forall_inv in Ok0.
    pose proof (shows_attribute img nt ml bs e f v _ Ok0 Hi) as H. rewrite Ev in H. destruct H as (i2 & F & l & [= <-] & H1 & H2 & _). eauto.
  Qed.

  Lemma ld_root_bytes : bytes_ok root.
  Proof.
    destruct D as [_ (v & data & o & Hm & Ev & Hr & H22 & Hv) _ _ _]. destruct (view_facts v 144 data o Hm Ev) as (H1 & H2 & H3 & _).
    apply (resident_len_bound (mkFile (mkRecord data None) 0) o root); auto.
  Qed.

  Lemma ld_open fuel d : (length offs + length views + 3 < fuel)%nat -> faultless d -> d_img d = img ->
    exists d1 ix, directory_index fuel nt f d = (d1, Ok ix) /\ gd d1 /\ ld_ix ix.
  Proof.
    intros Hfu Hfl Himg. destruct D as [(H24 & Hflag) (v & data & o & Hm & Ev & Hr & H22 & Hv) Hrok Hal _].
    pose proof (proj1 (ff_data _ _ _ _ _ _ _ _ _ _ _ _ Hff)) as Hb.
    destruct (view_facts v 144 data o Hm Ev) as (Hdb & Ho & Hf & Hty).
    destruct (find_flat_item img nt ml f before lo after clean bs offs e vs 144 (Some I30) fuel d Hff Hfl Himg Hfu) as (r & Hs & Er & G1).
    destruct (first_view_result base views clean (fun v i => item_is img nt ml bs e f v (Some (Ok i))) 144 I30 _ _ ltac:(unfold type_known; cbn; tauto) Hs Hm) as (i & -> & Hi). cbn [rbind] in Er.
    destruct (view_item v 144 data o i Hm Ev Hi) as (F & l & Hta & HF). subst data.
    destruct (attr_index_root_spec F o l root Hdb Ho Hf H22 Hty Hr Hv Hrok) as (p & Eir & Hrb).
    destruct (ir_entry_ranges_spec root p Hrb Hrok) as (q & Eg).
    assert (Edir : f_is_directory f = Ok true).
    { unfold f_is_directory, f_flags, rd_u16. rewrite rd_in by lia. cbn [rbind]. rewrite flags_bit by auto. now rewrite Hflag. }
    assert (Htr : attr_ensure_ty (mkAttr F o l) TY_IndexRoot = Ok tt) by (apply type_known_ty; auto; unfold type_known; cbn; tauto).
    destruct (find_attribute fuel nt f 144 (Some I30) d) as [d1 r1] eqn:Ef. cbn [fst snd] in Er, G1. subst r1.
    unfold directory_index. unfold mbind at 1, mlift at 1. rewrite Edir. cbn [negb].
    unfold mbind at 1. change TY_IndexRoot with 144. change DIRECTORY_INDEX_NAME with I30. rewrite Ef.
    unfold mbind at 1, mlift at 1. rewrite Hta. unfold mbind at 1, mlift at 1. rewrite Eir. unfold mbind at 1, mlift at 1. rewrite (ir_large_spec root p Hrok).
    destruct (root_is_large root) eqn:El.
    - destruct Hal as (v2 & Hm2 & Hal). destruct G1 as (G1 & G1').
      destruct (find_flat_item img nt ml f before lo after clean bs offs e vs 160 (Some I30) fuel d1 Hff (G1' eq_refl) G1 Hfu) as (r & Hs2 & Er & G2).
      destruct (first_view_result base views clean (fun v i => item_is img nt ml bs e f v (Some (Ok i))) 160 I30 _ _ ltac:(unfold type_known; cbn; tauto) Hs2 Hm2) as (i2 & -> & Hi2). cbn [rbind] in Er.
      assert (Hv2 : exists data2 o2, view_at base v2 = Some (data2, o2)) by (destruct v2; cbn; eauto; contradiction). destruct Hv2 as (data2 & o2 & Ev2).
      destruct (view_facts v2 160 data2 o2 Hm2 Ev2) as (Hdb2 & Ho2 & Hf2 & Hty2).
      destruct (view_item v2 160 data2 o2 i2 Hm2 Ev2 Hi2) as (F2 & l2 & Hta2 & HF2). subst data2.
      destruct (find_attribute fuel nt f 160 (Some I30) d1) as [d2 r2] eqn:Ef2. cbn [fst snd] in Er, G2. subst r2.
      unfold mbind at 1. unfold mbind at 1. change TY_IndexAllocation with 160. rewrite Ef2. unfold mret at 1. unfold mlift, index_new. rewrite Hta. cbn [rbind]. rewrite Htr. cbn [rbind]. rewrite Eir. cbn [rbind].
      rewrite Hta2. cbn [rbind]. change TY_IndexAllocation with 160. rewrite (type_known_ty F2 o2 l2 160) by (auto; unfold type_known; cbn; tauto). cbn [rbind].
      rewrite (ir_record_size_spec root p Hrok), Eg. cbn [rbind]. do 2 eexists. split; [reflexivity|]. split; auto. unfold ld_ix. cbn [ix_root ix_record_size ix_alloc]. rewrite El. splits; eauto 10.
    - unfold mbind at 1, mret at 1. unfold mlift, index_new. rewrite Hta. cbn [rbind]. rewrite Htr. cbn [rbind]. rewrite Eir. cbn [rbind]. rewrite (ir_large_spec root p Hrok), El. cbn [rbind].
      rewrite (ir_record_size_spec root p Hrok), Eg. cbn [rbind]. do 2 eexists. split; [reflexivity|]. split; auto. unfold ld_ix. cbn [ix_root ix_record_size ix_alloc]. rewrite El. splits; eauto.
  Qed.

  Lemma ld_cs : 1 <= cluster_size nt.
  Proof. exact (ve_cs _ _ _ (ff_valid _ _ _ _ _ _ _ _ _ _ _ _ Hff)). Qed.
  Lemma ld_alloc_bytes : bytes_ok alloc.
  Proof.
    pose proof (ff_img _ _ _ _ _ _ _ _ _ _ _ _ Hff) as Hb. destruct D as [_ _ _ Hal _]. destruct (root_is_large root); [|rewrite Hal; constructor].
    destruct Hal as ([o|n p data a|n p data a from|] & _ & Hal); try contradiction.
    - destruct Hal as (l & _ & _ & _ & _ & _ & _ & ->). now apply bytes_ok_content.
    - destruct Hal as (parts & _ & _ & _ & ->). now apply bytes_ok_content.
  Qed.

  Lemma ld_child_ok vcn data : index_child (cluster_size nt) root alloc vcn data -> bytes_ok data /\ 24 + field 4 data 28 <= zlen data.
  Proof.
    intros ([H1 H2 H3 H4] & _). split.
    - eapply stored_bytes_ok; [|exact H2]. apply bytes_ok_slice, ld_alloc_bytes.
    - destruct H3 as (_ & H3 & H5). lia.
  Qed.
  Lemma ld_large vcn data : index_child (cluster_size nt) root alloc vcn data -> root_is_large root = true.
  Proof.
    intros ([(H0 & H1) H2 H3 H4] & _). destruct D as [_ _ _ Hal _]. destruct (root_is_large root); auto. rewrite Hal in H1. change (zlen []) with 0 in H1.
    destruct (st_fits _ _ H2) as (F & _). pose proof ld_root_bytes. pose proof (field4_bound root 8 H). unfold root_record_size in *.
    assert (E : field 4 root 8 = 0 /\ vcn * cluster_size nt = 0) by lia. destruct E as (E1 & E2). rewrite E1, E2 in F. rewrite Hal in F. vm_compute in F. exfalso. now apply F.
  Qed.

  (** The device and the fuel with which subnodes are read. *)
  Lemma ld_opens ix d : ld_ix ix -> gd d -> root_is_large root = true -> exists (G : dev -> Prop) K i a, G d /\ (forall d', G d' -> gd d') /\
    (forall d1 d2, G d1 -> gd d2 -> (length (d_reads d2) <= length (d_reads d1))%nat -> G d2) /\
    ix_alloc ix = Some i /\ item_to_attribute i = Ok a /\ attr_ensure_ty a TY_IndexAllocation = Ok tt /\
    forall d0, G d0 -> alloc <> [] -> exists d' v I, attr_value nt a d0 = (d', Ok v) /\ ia_of_value v = Ok v /\ G d' /\ I v /\ av_stream_position v = 0 /\
      (forall w, I w -> av_len w = zlen alloc) /\ refines (av_read K) (av_seek K) I av_stream_position G alloc (zlen alloc).
  Proof.
    intros (_ & Hsize & Hix) Hg El. rewrite El in Hix.
    destruct D as [_ _ _ Hal Hrs]. rewrite El in Hal. specialize (Hrs El). destruct Hal as (v' & Hm' & Hal). destruct Hix as (v & i & Hm & Ei & Hi).
    assert (v = v') as -> by (eapply (first_view_unique _ _ 160); eauto; unfold type_known; cbn; tauto).
    pose proof (proj1 (ff_data _ _ _ _ _ _ _ _ _ _ _ _ Hff)) as Hb. pose proof (ff_img _ _ _ _ _ _ _ _ _ _ _ _ Hff) as Hib.
    destruct v' as [o|n p data a|n p data a from|]; try contradiction.
    - destruct Hal as (l & Hr & H56 & Hro & Hv & He & Hs & Ha). destruct (view_facts _ 160 _ _ Hm' eq_refl) as (_ & Ho & Hf & Hty).
      destruct Hi as (Hi & _). cbn [item_shows] in Hi. injection Hi as ->.
      exists gd, 0%nat. do 2 eexists. split; auto. split; auto. split; auto. split; [exact Ei|]. split; [|split].
      + unfold item_to_attribute. cbn [ai_value_file ai_file ai_offset ai_entries]. exact (proj1 (attr_new_spec f o None Ho) Hf).
      + apply type_known_ty; auto; unfold type_known; cbn; tauto.
      + intros d1 G1 _. destruct (alloc_value nt img f alloc Hb o l Ho Hf Hr H56 Hro Hv He Hs Ha) as (w & I & _ & E & H1 & H2 & H3 & H4 & H5). exists d1, w, I. splits; auto.
    - destruct Hal as (parts & H56 & Hcon & Hs & Ha). destruct (view_facts _ 160 _ _ Hm' eq_refl) as (Hdb & Ho & Hf & Hty).
      destruct Hi as ((l & Hi & _) & Y). injection Hi as ->. specialize (Y _ l eq_refl eq_refl).
      set (F := mkFile (mkRecord data (Some p)) n) in *. set (ty := attr_type_at data a) in *. set (inst := attr_instance_at data a) in *.
      set (size := field 8 data (a + 48)) in *. pose proof (field8_bound data (a + 48) Hdb) as Hsz.
      destruct (ff_mft _ _ _ _ _ _ _ _ _ _ _ _ Hff) as (mp & mdata & Hmp & Hmft).
      assert (Hew : ends_well e = true) by (pose proof (ff_end _ _ _ _ _ _ _ _ _ _ _ _ Hff); destruct e; auto; contradiction).
      assert (Hk : type_known ty) by (rewrite Hty; unfold type_known; cbn; tauto).
      destruct (connected_extents _ _ _ _ _ _ _ _ _ Hcon) as (Hcf & Hcd).
      assert (Hz : zlen alloc = size) by (rewrite Ha; apply content_size2; auto using ld_cs; unfold size; lia).
      set (K := (length (d_reads d) + 2 * length (map (run_of (cluster_size nt)) (concat parts)) + 2)%nat).
      exists (gdf img nt parts K), K. do 2 eexists. split; [split; auto|]. split; [intros d' (G1 & _); exact G1|].
      split; [intros d1 d2 (_ & G1) G2 Hle; split; auto; lia|]. split; [exact Ei|]. split; [|split].
      + unfold item_to_attribute. cbn [ai_value_file ai_file ai_offset ai_entries]. exact (proj1 (attr_new_spec F a (Some l) Ho) Hf).
      + apply type_known_ty; auto; unfold type_known; cbn; tauto.
      + intros d1 (G1 & G1') Hne.
        assert (Hpn : parts <> []) by (intros ->; apply Hne; rewrite Ha; reflexivity).
        destruct (lv_new_ok img nt mp mdata ml bs ty inst size e l Hib Hmp (ff_size _ _ _ _ _ _ _ _ _ _ _ _ Hff) Hmft (ff_valid _ _ _ _ _ _ _ _ _ _ _ _ Hff) ld_bytes Hk from parts Y Hcon Hpn d1 G1)
          as (d2 & w & E & G2 & I & P0 & Evo).
        exists d2, (AVList w), (fun x => exists u, x = AVList u /\ lv_inv img nt ml bs ty inst size e l parts u). split; [|split; [reflexivity|split; [|split; [|split; [exact P0|split]]]]].
        * unfold attr_value. cbn [at_entries]. unfold attr_nr_data_size, attr_instance. rewrite !attr_rd_in by (change (f_data F) with data; lia).
          change (f_data F) with data. rewrite (proj1 (attr_ty_spec F a (Some l) Ho Hf)) by exact Hk. unfold mbind, mlift, mret. 
          change (field 8 data (a + 48)) with size. change (field 2 data (a + 14)) with inst. change (attr_type_at (f_data F) a) with ty. rewrite E. reflexivity.
        * split; auto. apply evolves_length in Evo. lia.
        * exists w. auto.
        * intros w0 (w1 & -> & I1). rewrite Hz. exact (lv_inv_len img nt ml bs ty inst size e l parts w1 I1).
        * rewrite Hz, Ha. apply (refines_map AVList _ _ _ _ _ _ _ (av_read K) (av_seek K) av_stream_position
            (lv_refines img nt mp mdata ml bs ty inst size e l Hib Hmp (ff_size _ _ _ _ _ _ _ _ _ _ _ _ Hff) Hmft (ff_valid _ _ _ _ _ _ _ _ _ _ _ _ Hff) ld_bytes Hk from parts Y Hcon Hpn ltac:(lia) K)); reflexivity.
  Qed.

  Lemma ld_subnode ix d : ld_ix ix -> gd d -> exists (G : dev -> Prop) K, G d /\ (forall d', G d' -> gd d') /\
    (forall d1 d2, G d1 -> gd d2 -> (length (d_reads d2) <= length (d_reads d1))%nat -> G d2) /\
    forall vcn data d0, index_child (cluster_size nt) root alloc vcn data -> G d0 -> exists d' p,
    index_subnode K nt ix vcn d0 = (d', Ok (mkRanges data (24 + field 4 data 24) (24 + field 4 data 28) p)) /\ G d'.
  Proof.
    intros Hix Hg. destruct (root_is_large root) eqn:El.
    2: { exists gd, 0%nat. split; auto. split; auto. split; auto. intros vcn data d0 Hc. rewrite (ld_large vcn data Hc) in El. discriminate. }
    destruct (ld_opens ix d Hix Hg El) as (G & K & i & a & HG & HGg & HGl & Ei & Ha & Hty & Hopen). exists G, K. splits; auto.
    pose proof Hix as (_ & Hsize & _). destruct D as [_ _ _ _ Hrs]. specialize (Hrs El).
    intros vcn data d0. eapply opened_subnode; eauto using ld_cs, ld_alloc_bytes.
  Qed.

  Lemma ld_traverse ix l d : ld_ix ix -> gd d -> index_listing (cluster_size nt) root alloc l ->
    exists es N, map ie_slice es = l /\ forall fuel n, (N <= fuel)%nat ->
      iterate (with_dev (entries_next fuel nt ix)) (length es + n) (index_entries ix, d) = map (fun e => Some (Ok e)) es ++ repeat None n.
  Proof.
    intros Hix Hg Hli. pose proof Hix as ((q & Hroot) & _). unfold index_entries. rewrite Hroot.
    assert (Hrb : bytes_ok (root_entries root)) by (apply bytes_ok_slice, ld_root_bytes).
    destruct (ld_subnode ix d Hix Hg) as (G & K & HG & _ & _ & Hsub).
    destruct (traverse (index_subnode K nt ix) G _ ld_child_ok Hsub (root_entries root) _ 0 l q d Hli Hrb ltac:(lia) ltac:(lia) HG) as (es & N & He & H).
    exists es, (N + K)%nat. split; auto. intros fuel n Hf. rewrite <- (H fuel n ltac:(lia)). apply iterate_more.
    - intros [st d1] Hne. unfold with_dev in *. cbn [fst snd] in *. unfold entries_next. rewrite (entries_loop_more nt ix K fuel st d1); auto; [lia|].
      destruct (entries_loop _ _ _ _) as [? [? ?]]. exact Hne.
    - rewrite (H fuel n ltac:(lia)). intros Hin. apply in_app_or in Hin as [Hin|Hin]; [apply in_map_iff in Hin as (x & E & _)|apply repeat_spec in Hin]; discriminate.
  Qed.
  Lemma ld_find {X} (kp : list Z -> position -> res X) cmp c ix l d : ld_ix ix -> gd d -> index_listing (cluster_size nt) root alloc l ->
    Forall (compares kp cmp c) l -> consistent c l ->
    exists N d' r, gd d' /\ found c l r /\ forall fuel, (N <= fuel)%nat -> index_find kp cmp fuel nt ix d = (d', r).
  Proof.
    intros Hix Hg Hli Hcm Hcs'. pose proof Hix as ((q & Hroot) & _). unfold index_find. rewrite Hroot.
    assert (Hrb : bytes_ok (root_entries root)) by (apply bytes_ok_slice, ld_root_bytes).
    destruct (ld_subnode ix d Hix Hg) as (G & K & HG & HGg & _ & Hsub).
    destruct (proj1 (listing_find (index_subnode K nt ix) G _ ld_child_ok Hsub kp cmp c) _ _ _ _ Hli Hrb ltac:(lia) ltac:(lia) Hcm Hcs' d q HG) as (N & d' & r & Hg' & Hr & H).
    exists (N + K)%nat, d', r. split; auto. split; auto. intros fuel Hf. rewrite <- (H fuel ltac:(lia)). apply find_loop_more; [lia|].
    rewrite (H fuel ltac:(lia)). cbn [snd]. intros ->. exact Hr.
  Qed.
End ListDir.

(** ** The claims *)
Lemma listed_directory_listing img nt ml f before lo after clean bs offs e vs root alloc l fuel d : file_with_list img nt ml f before lo after clean bs offs e vs ->
  let views := map VBase before ++ vs ++ map VBase after in
  listed_directory img nt ml f bs e views root alloc -> index_listing (cluster_size nt) root alloc l ->
  (length offs + length views + 3 < fuel)%nat -> faultless d -> d_img d = img ->
  exists d1 ix, directory_index fuel nt f d = (d1, Ok ix) /\ d_img d1 = img /\ faultless d1 /\
  forall d2, faultless d2 -> d_img d2 = img -> exists es N, map ie_slice es = l /\ forall k n, (N <= k)%nat ->
    iterate (with_dev (entries_next k nt ix)) (length es + n) (index_entries ix, d2) = map (fun e => Some (Ok e)) es ++ repeat None n.
Proof.
  intros Hff views D L Hfu Hf Hi. destruct (ld_open _ _ _ _ _ _ _ _ _ _ _ _ _ _ Hff D fuel d Hfu Hf Hi) as (d1 & ix & E & (G1 & G2) & Hix).
  exists d1, ix. splits; auto. intros d2 Hf2 Hi2. eapply ld_traverse; eauto. split; auto.
Qed.
Lemma listed_directory_lookup img nt ml f before lo after clean bs offs e vs root alloc l fuel d K (kp : list Z -> position -> res K) cmp c :
  file_with_list img nt ml f before lo after clean bs offs e vs ->
  let views := map VBase before ++ vs ++ map VBase after in
  listed_directory img nt ml f bs e views root alloc -> index_listing (cluster_size nt) root alloc l ->
  (length offs + length views + 3 < fuel)%nat -> faultless d -> d_img d = img ->
  Forall (fun e => has_key e /\ forall p, exists k, kp (key_of e) p = Ok k /\ cmp k = Ok (c e)) l -> consistent c l ->
  exists d1 ix, directory_index fuel nt f d = (d1, Ok ix) /\ d_img d1 = img /\ faultless d1 /\
  forall d2, faultless d2 -> d_img d2 = img ->
  exists N d' r, d_img d' = img /\ (forall n, (N <= n)%nat -> index_find kp cmp n nt ix d2 = (d', r)) /\
  match r with
  | Some (Ok e) => In (ie_slice e) l /\ c (ie_slice e) = Eq
  | None => Forall (fun e => c e <> Eq) l
  | _ => False
  end.
Proof.
  intros Hff views D L Hfu Hf Hi Hc Hs. destruct (ld_open _ _ _ _ _ _ _ _ _ _ _ _ _ _ Hff D fuel d Hfu Hf Hi) as (d1 & ix & E & (G1 & G2) & Hix).
  exists d1, ix. splits; auto. intros d2 Hf2 Hi2.
  destruct (ld_find _ _ _ _ _ _ _ _ _ _ _ _ _ _ Hff D kp cmp c ix l d2 Hix (conj Hi2 (fun _ => Hf2)) L Hc Hs) as (N & d' & r & Hg & F & H).
  exists N, d', r. split; [apply Hg|]. split; auto.
Qed.
Lemma listed_directory_names img nt ml f before lo after clean bs offs e vs root alloc l fuel d t name :
  file_with_list img nt ml f before lo after clean bs offs e vs ->
  let views := map VBase before ++ vs ++ map VBase after in
  listed_directory img nt ml f bs e views root alloc -> index_listing (cluster_size nt) root alloc l ->
  (length offs + length views + 3 < fuel)%nat -> faultless d -> d_img d = img ->
  upcase_table nt = Some t -> zlen t = 65536 -> Forall unit_ok name ->
  Forall (fun e => exists us, named e us) l -> names_sorted (fun a b => lex_lt (upper t a) (upper t b)) l ->
  exists d1 ix, directory_index fuel nt f d = (d1, Ok ix) /\ d_img d1 = img /\ faultless d1 /\
  forall d2, faultless d2 -> d_img d2 = img ->
  exists N d' r, d_img d' = img /\ (forall n, (N <= n)%nat -> file_name_find n nt ix name d2 = (d', r)) /\
  match r with
  | Some (Ok e) => In (ie_slice e) l /\ exists us, named (ie_slice e) us /\ upper t us = upper t name
  | None => forall e us, In e l -> named e us -> upper t us <> upper t name
  | _ => False
  end.
Proof.
  intros Hff views D L Hfu Hf Hi Ht Hl Hn Hnm Hs.
  assert (Lb : Forall bytes_ok l).
  { eapply listing_bytes; [|exact L|].
    - intros vcn data Hc. exact (proj1 (ld_child_ok _ _ _ _ _ _ _ _ _ _ _ _ _ _ Hff D vcn data Hc)).
    - apply bytes_ok_slice. exact (ld_root_bytes _ _ _ _ _ _ _ _ _ _ _ _ _ _ Hff D). }
  assert (Lc : Forall (compares fn_from_slice (fun k => upcase_cmp nt name (units (fn_name k))) (answer nt name)) l).
  { apply Forall_forall. intros x He. destruct (proj1 (Forall_forall _ _) Hnm x He) as (us & N). apply (answer_compares nt t name Ht Hl Hn x us); auto. now apply (proj1 (Forall_forall _ _) Lb). }
  destruct (listed_directory_lookup _ _ _ _ _ _ _ _ _ _ _ _ _ _ l fuel d _ fn_from_slice (fun k => upcase_cmp nt name (units (fn_name k))) (answer nt name) Hff D L Hfu Hf Hi Lc)
    as (d1 & ix & E & E1 & E2 & H); [apply (answer_consistent nt t name Ht Hl Hn); auto|].
  exists d1, ix. splits; auto. intros d2 Hf2 Hi2. destruct (H d2 Hf2 Hi2) as (N & d' & r & Hd & Er & F). clear H.
  exists N, d', r. split; auto. split; [exact Er|]. rewrite Forall_forall in Lb, Hnm.
  destruct r as [[x|x| |]|]; cbn in F |- *; auto.
  - destruct F as [F1 F2]. split; auto. destruct (Hnm _ F1) as (us & Nm). exists us. split; auto.
    destruct (answer_spec nt t name Ht Hl Hn (ie_slice x) (Lb _ F1)) as (_ & A & _). rewrite (named_units _ _ Nm). symmetry. now apply A.
  - intros x us Ie Nm K. rewrite Forall_forall in F. apply (F _ Ie).
    destruct (answer_spec nt t name Ht Hl Hn x (Lb _ Ie)) as (_ & A & _). apply A. rewrite <- (named_units _ _ Nm). now symmetry.
Qed.
