(** * Directories whose attributes are spread over several file records: arbitrary contents of the index, and nodes that cannot be read (C29, C30, C67). *)
From Coq Require Import Lia.
From Verif Require Import Base Dev Types Record DataRuns Stream NonResident Resident Attribute File Guid Structured AttrList Upcase Index
  Spec SpecMisc SpecValues SpecIndex SpecAttrList SpecListDir SpecFaults SpecHoled BaseProofs DevProofs StreamProofs DataRunsProofs ReaderProofs ResidentProofs NonResidentProofs
  AttributeProofs FileProofs StructuredProofs ValueProofs EvolveProofs AttrListProofs NodeProofs RecordProofs IndexRecordProofs IndexProofs IndexTotalProofs DirTotalProofs DirectoryProofs IndexClaims
  AttrListIterProofs AttrListValueProofs FlatProofs FlatSearchProofs FaultProofs FaultSessionProofs FuelProofs HoledProofs ListDirProofs.

(** ** The device *)
Lemma av_read_evolves k v n d : evolves d (fst (av_read k v n d)).
Proof.
  destruct v as [v|v]; cbn [av_read].
  - pose proof (sv_read_evolves v n d) as H. destruct (sv_read v n d) as [d' [v' r]]. exact H.
  - pose proof (lv_read_evolves k v n d) as H. destruct (lv_read k v n d) as [d' [v' r]]. exact H.
Qed.
Lemma av_seek_evolves k v s d : evolves d (fst (av_seek k v s d)).
Proof.
  destruct v as [v|v]; cbn [av_seek].
  - pose proof (sv_seek_evolves v s d) as H. destruct (sv_seek v s d) as [d' [v' r]]. exact H.
  - pose proof (lv_seek_evolves k v s d) as H. destruct (lv_seek k v s d) as [d' [v' r]]. exact H.
Qed.
Lemma irec_new_evolves k v size d : evolves d (fst (irec_new k v size d)).
Proof.
  unfold irec_new. pose proof (rs_read_exact_evolves (av_read k) (av_read_evolves k) v size d) as H.
  destruct (rs_read_exact (av_read k) v size d) as [d' [v' [x|x| |]]]; exact H.
Qed.
Lemma attr_value_evolves nt a d : evolves d (fst (attr_value nt a d)).
Proof.
  unfold attr_value. destruct (at_entries a) as [l|]; repeat (apply mbind_evolves; [|intros ? ?]); auto; intros d'; auto.
  unfold lv_new. match goal with |- context [lv_next_attribute ?v ?x] => pose proof (lv_next_attribute_evolves v x) as H; destruct (lv_next_attribute v x) as [dd [vv [yy|yy| |]]] end; exact H.
Qed.
Lemma record_from_vcn_evolves k nt v size vcn d : evolves d (fst (record_from_vcn k nt v size vcn d)).
Proof.
  unfold record_from_vcn. apply mbind_evolves; [auto|]. intros off d1.
  pose proof (av_seek_evolves k v (SCurrent off) d1) as H. destruct (av_seek k v (SCurrent off) d1) as [d2 [v2 [y|y| |]]]; auto.
  destruct (_ <=? _); auto. eapply evolves_trans; [exact H|]. apply mbind_evolves; [apply irec_new_evolves|]. intros r d3. apply mbind_evolves; [auto|]. intros x d4. now destruct (_ =? _).
Qed.
Lemma index_subnode_evolves k nt ix vcn d : evolves d (fst (index_subnode k nt ix vcn d)).
Proof.
  unfold index_subnode. repeat (apply mbind_evolves; [|intros ? ?]); auto using attr_value_evolves, record_from_vcn_evolves; intros d'; auto.
Qed.

(** ** Subnodes with arbitrary contents *)
Section Total.
  Context (nt : ntfs) (root alloc : list Z) (G : dev -> Prop) (K : nat) (ix : index) (i : attr_item) (a : attribute) (pan : bool).
  Context (Hab : bytes_ok alloc) (Hcs : 1 <= cluster_size nt) (Hrs : 36 <= root_record_size root <= U16_MAX)
    (Hi : ix_alloc ix = Some i) (Hsize : ix_record_size ix = root_record_size root) (Ha : item_to_attribute i = Ok a) (Hty : attr_ensure_ty a TY_IndexAllocation = Ok tt).
  Context (Hopen : forall d, G d -> exists d' v I, attr_value nt a d = (d', Ok v) /\ ia_of_value v = Ok v /\ G d' /\ I v /\ av_stream_position v = 0 /\
    (forall w, I w -> av_len w = zlen alloc) /\ refines (av_read K) (av_seek K) I av_stream_position G alloc (zlen alloc)).
  Context (Hclear : arrays_clear (cluster_size nt) (root_record_size root) alloc) (Hsz : pan = false -> sizes_small (cluster_size nt) (root_record_size root) alloc).

  Lemma opened_total vcn d : G d -> exists d' r, index_subnode K nt ix vcn d = (d', r) /\ G d' /\ fine pan r /\
    forall g, r = Ok g -> 0 <= vcn /\ exists data p, index_child (cluster_size nt) root alloc vcn data /\ g = mkRanges data (24 + field 4 data 24) (24 + field 4 data 28) p.
  Proof.
    intros Hg. destruct (Hopen d Hg) as (d1 & v & I & Ev & Eia & G1 & HI & Hp & Hlen & R).
    unfold index_subnode. unfold mbind at 1, mlift at 1. rewrite Hi.
    unfold mbind at 1, mlift at 1. rewrite Ha. unfold mbind at 1, mlift at 1. rewrite Hty.
    unfold mbind at 1. rewrite Ev. unfold mbind at 1, mlift at 1. rewrite Eia. rewrite Hsize.
    set (size := root_record_size root) in *. set (cs := cluster_size nt) in *.
    destruct (record_from_vcn_spec nt K I G alloc size R Hlen Hrs v d1 vcn HI Hp G1) as (d' & r & Hg' & E & H1 & H2 & H3 & H4 & H5). cbn zeta in *. fold cs in H1, H2, H3, H4, H5.
    unfold mbind at 1. rewrite E.
    assert (Hfine : fine pan r).
    { destruct (Z_lt_le_dec (vcn * cs) I64_MIN); [rewrite H1 by lia; exact Logic.I|]. destruct (Z_lt_le_dec I64_MAX (vcn * cs)); [rewrite H1 by lia; exact Logic.I|].
      destruct (Z_lt_le_dec (vcn * cs) 0); [rewrite H2 by lia; exact Logic.I|]. destruct (Z_le_gt_dec (zlen alloc) (vcn * cs)); [rewrite H3 by lia; exact Logic.I|].
      destruct (Z_lt_le_dec (zlen alloc) (vcn * cs + size)) as [|Hin]; [rewrite H4 by lia; exact Logic.I|].
      destruct (H5 ltac:(lia) ltac:(lia)) as (p & ->). set (prot := slice alloc _ _) in *.
      assert (Hpb : bytes_ok prot) by (now apply bytes_ok_slice). assert (Hpl : zlen prot = size) by (unfold prot; rewrite slice_len; lia).
      assert (Hx : fine pan (irec_of_bytes prot p) /\ forall x, irec_of_bytes prot p = Ok x -> zlen (rec_data x) = size).
      { split.
        - destruct pan eqn:Ep.
          + pose proof (irec_of_bytes_fuel prot p Hpb ltac:(lia)) as Hof. destruct (irec_of_bytes prot p); cbn; auto.
          + destruct (Hsz eq_refl vcn ltac:(lia) Hin) as (S1 & S2). fold cs in S1, S2.
            pose proof (irec_of_bytes_returns prot p Hpb ltac:(lia)) as Hret.
            assert (F1 : field 4 prot 28 = field 4 alloc (vcn * cs + 28)) by (unfold prot; apply field_slice; lia).
            assert (F2 : field 4 prot 32 = field 4 alloc (vcn * cs + 32)) by (unfold prot; apply field_slice; lia).
            rewrite F1, F2 in Hret. specialize (Hret S2 S1). destruct (irec_of_bytes prot p); cbn in *; tauto.
        - intros x Ex. specialize (Hclear vcn ltac:(lia) Hin). destruct (proj1 (irec_of_bytes_spec prot p Hpb ltac:(lia) Hclear x) Ex) as (data & -> & Hst & _).
          cbn [rec_data]. pose proof (st_len _ _ Hst). lia. }
      destruct Hx as (Hx1 & Hx2). destruct (irec_of_bytes prot p) as [x|y| |]; cbn [rbind] in *; auto.
      unfold irec_vcn, rd_u64. pose proof (Hx2 x eq_refl) as Hx3; rewrite rd_in by lia. cbn [rbind]. destruct (_ =? vcn); exact Logic.I. }
    destruct r as [r|y| |]; unfold mlift; try (do 2 eexists; split; [reflexivity|]; split; [auto|]; split; [exact Hfine|discriminate]).
    destruct (record_from_vcn_inv nt K I G alloc size R Hlen Hab Hcs Hrs v d1 d' vcn r HI Hp G1 (Hclear vcn) E) as (_ & Hm & Hrec).
    pose proof (ir_inside _ _ _ _ _ Hrec) as (Hin1 & Hin2). specialize (Hclear vcn Hin1 Hin2).
    unfold irec_entry_ranges, irec_range, irec_entries_offset, irec_data_size, rd_u32.
    pose proof (st_len _ _ (ir_stored _ _ _ _ _ Hrec)) as Hz. rewrite slice_len in Hz by lia. rewrite !rd_in by lia. cbn [rbind].
    do 2 eexists. split; [reflexivity|]. split; auto. split; [exact Logic.I|]. intros g [= <-]. split; [unfold cs in *; nia|].
    exists (rec_data r). eexists. split; [|reflexivity]. split; auto.
  Qed.
End Total.

Section ListTotal.
  Context (img : list Z) (nt : ntfs) (ml : list extent) (f : file) (before : list Z) (lo : Z) (after : list Z) (clean : bool)
    (bs offs : list Z) (e : list_end) (vs : list view) (root alloc : list Z).
  Context (Hff : file_with_list img nt ml f before lo after clean bs offs e vs).
  Notation views := (map VBase before ++ vs ++ map VBase after).
  Context (D : listed_directory img nt ml f bs e views root alloc).
  Notation gd := (good img true).
  Notation child := (index_child (cluster_size nt) root alloc).
  Notation ld_ix := (ld_ix img nt ml f before after bs e vs root).
  Context (Hne : root_is_large root = true -> alloc <> []) (Hclear : arrays_clear (cluster_size nt) (root_record_size root) alloc).

  Lemma ld_sub_total pan ix d : (pan = false -> sizes_small (cluster_size nt) (root_record_size root) alloc) -> ld_ix ix -> gd d ->
    exists (G : dev -> Prop) K, G d /\ (forall d', G d' -> gd d') /\
    (forall d1 d2, G d1 -> gd d2 -> (length (d_reads d2) <= length (d_reads d1))%nat -> G d2) /\
    forall vcn d0, G d0 -> exists d' r, index_subnode K nt ix vcn d0 = (d', r) /\ G d' /\ fine pan r /\
    (forall g, r = Ok g -> 0 <= vcn /\ exists data p, child vcn data /\ g = mkRanges data (24 + field 4 data 24) (24 + field 4 data 28) p) /\
    forall data, child vcn data -> exists p, r = Ok (mkRanges data (24 + field 4 data 24) (24 + field 4 data 28) p).
  Proof.
    intros Hsz Hix Hg. destruct (root_is_large root) eqn:El.
    2: { exists gd, 0%nat. split; auto. split; auto. split; auto. intros vcn d0 Hg0. destruct Hix as (_ & _ & Hal). rewrite El in Hal.
         unfold index_subnode. unfold mbind at 1, mlift at 1. rewrite Hal. do 2 eexists. split; [reflexivity|]. split; auto. split; [exact Logic.I|]. split; [discriminate|].
         intros data Hc. rewrite (ld_large _ _ _ _ _ _ _ _ _ _ _ _ _ _ Hff D vcn data Hc) in El. discriminate. }
    destruct (ld_opens _ _ _ _ _ _ _ _ _ _ _ _ _ _ Hff D ix d Hix Hg El) as (G & K & i & a & HG & HGg & HGl & Ei & Ha & Hty & Hopen). exists G, K. split; auto. split; auto. split; auto.
    pose proof Hix as (_ & Hsize & _). pose proof (SpecListDir.ld_record_size _ _ _ _ _ _ _ _ _ D El) as Hrs.
    pose proof (ld_alloc_bytes _ _ _ _ _ _ _ _ _ _ _ _ _ _ Hff D) as Hab. pose proof (ld_cs _ _ _ _ _ _ _ _ _ _ _ _ Hff) as Hcs.
    intros vcn d0 Hg0.
    destruct (opened_total nt root alloc G K ix i a pan Hab Hcs Hrs Ei Hsize Ha Hty (fun d1 H1 => Hopen d1 H1 (Hne eq_refl)) Hclear Hsz vcn d0 Hg0) as (d' & r & E & G1 & F & H).
    exists d', r. split; auto. split; auto. split; auto. split; auto. intros data Hc.
    destruct (opened_subnode nt root alloc G K ix i a Hab Hcs Hrs Ei Hsize Ha Hty Hopen vcn data d0 Hc Hg0) as (d2 & p & E2 & _). rewrite E in E2. injection E2 as _ ->. eauto.
  Qed.

  Lemma ld_child_total vcn data : child vcn data -> bytes_ok data /\ 24 + field 4 data 28 <= zlen data /\ (Z.to_nat (zlen data) < Z.to_nat U16_MAX + 1)%nat.
  Proof.
    intros Hc. destruct (ld_child_ok _ _ _ _ _ _ _ _ _ _ _ _ _ _ Hff D vcn data Hc) as (H1 & H2). split; auto. split; auto.
    pose proof (ld_large _ _ _ _ _ _ _ _ _ _ _ _ _ _ Hff D vcn data Hc) as El. pose proof (SpecListDir.ld_record_size _ _ _ _ _ _ _ _ _ D El) as Hrs.
    destruct Hc as (Hrec & _). pose proof (ir_inside _ _ _ _ _ Hrec) as (Hin1 & Hin2). pose proof (st_len _ _ (ir_stored _ _ _ _ _ Hrec)) as Hz.
    rewrite slice_len in Hz by lia. unfold U16_MAX in *. lia.
  Qed.

  Section Acyclic.
  Context (pan : bool) (Hsz : pan = false -> sizes_small (cluster_size nt) (root_record_size root) alloc)
    (Hac : acyclic child) (Hshort : pan = false -> no_short_entry child (root_entries root)).

  Lemma ld_root_node rank ix : ld_ix ix -> exists n, node pan child (Z.to_nat U16_MAX + 1) rank (ix_root ix) n.
  Proof.
    intros ((q & Hroot) & _). rewrite Hroot.
    assert (Hrb : bytes_ok (root_entries root)) by (apply bytes_ok_slice; eapply ld_root_bytes; eauto).
    destruct (node_walk_exists (root_entries root) (zlen (root_entries root)) Hrb ltac:(lia) 0 ltac:(lia)) as (l & e0 & Wk).
    destruct (root_rank child rank (root_entries root) l) as (r & Hr).
    eexists. exists r, l, e0. cbn [rg_data rg_start rg_end]. split; auto. split; [lia|]. split; [lia|]. split; auto.
    split; [intros Hp; destruct (Hshort Hp) as (H & _); eapply H; eauto|]. split; [exact Hr|reflexivity].
  Qed.

  Lemma ld_iterate_total ix d : ld_ix ix -> gd d -> exists N, forall fuel n, (N <= fuel)%nat ->
    Forall (fine_item pan) (iterate (with_dev (entries_next fuel nt ix)) n (index_entries ix, d)).
  Proof.
    intros Hix Hg. destruct Hac as (rank & Hrank). destruct (ld_root_node rank ix Hix) as (n0 & Hn0).
    destruct (ld_sub_total pan ix d Hsz Hix Hg) as (G & K & HG & _ & _ & Hsub0).
    assert (Hsub : forall vcn d0, G d0 -> exists d' r, index_subnode K nt ix vcn d0 = (d', r) /\ G d' /\ fine pan r /\
      forall g, r = Ok g -> 0 <= vcn /\ exists data p, child vcn data /\ g = mkRanges data (24 + field 4 data 24) (24 + field 4 data 28) p).
    { intros vcn d0 H0. destruct (Hsub0 vcn d0 H0) as (d' & r & K1 & K2 & K3 & K4 & _). exists d', r. auto. }
    exists (S n0 + K)%nat. intros fuel n Hf.
    assert (H : Forall (fine_item pan) (iterate (with_dev (entries_loop (index_subnode K nt ix) fuel)) n (index_entries ix, d))).
    { eapply (iterate_total pan (index_subnode K nt ix) G child (Z.to_nat U16_MAX + 1) ld_child_total Hsub rank Hrank) with (n := n0); auto; try lia.
      - intros Hp. apply (Hshort Hp).
      - cbn [es_iters es_following index_entries]. constructor. exact Hn0. }
    rewrite (iterate_more (with_dev (entries_loop (index_subnode K nt ix) fuel))); auto.
    - intros [st d1] Hx. unfold with_dev in *. cbn [fst snd] in *. unfold entries_next. rewrite (entries_loop_more nt ix K fuel st d1); auto; [lia|].
      destruct (entries_loop _ _ _ _) as [? [? ?]]. exact Hx.
    - intros Hin. rewrite Forall_forall in H. apply (H _ Hin).
  Qed.

  Lemma ld_find_total {X} (kp : list Z -> position -> res X) cmp ix d : (forall s p, fine pan (kp s p)) -> (forall k, fine pan (cmp k)) ->
    ld_ix ix -> gd d -> exists N, forall fuel, (N <= fuel)%nat -> fine_item pan (snd (index_find kp cmp fuel nt ix d)).
  Proof.
    intros Hkp Hcmp Hix Hg. destruct Hac as (rank & Hrank). destruct (ld_root_node rank ix Hix) as (n0 & Hn0).
    destruct (ld_sub_total pan ix d Hsz Hix Hg) as (G & K & HG & _ & _ & Hsub0).
    assert (Hsub : forall vcn d0, G d0 -> exists d' r, index_subnode K nt ix vcn d0 = (d', r) /\ G d' /\ fine pan r /\
      forall g, r = Ok g -> 0 <= vcn /\ exists data p, child vcn data /\ g = mkRanges data (24 + field 4 data 24) (24 + field 4 data 28) p).
    { intros vcn d0 H0. destruct (Hsub0 vcn d0 H0) as (d' & r & K1 & K2 & K3 & K4 & _). exists d', r. auto. }
    exists (S n0 + K)%nat. intros fuel Hf. unfold index_find.
    destruct (find_total pan (index_subnode K nt ix) G child (Z.to_nat U16_MAX + 1) ld_child_total Hsub rank Hrank)
      with (K := X) (kp := kp) (cmp := cmp) (f := fuel) (g := ix_root ix) (d := d) (n := n0) as (d' & x & E & _ & Hx); auto; try lia.
    - intros Hp. apply (Hshort Hp).
    - rewrite (find_loop_more kp cmp nt ix K fuel); [rewrite E; exact Hx|lia|]. rewrite E. cbn [snd]. intros ->. exact Hx.
  Qed.
  End Acyclic.
End ListTotal.

(** ** Nodes that cannot be read *)
Lemma faultfree_good img d : d_img d = img -> good img true (without_faults d).
Proof. intros H. split; [exact H|intros _; apply without_faultless]. Qed.
Lemma without_length d : length (d_reads (without_faults d)) = length (d_reads d).
Proof. unfold without_faults. cbn [d_reads]. apply map_length. Qed.
Lemma holed_no_fuel child lost : (forall data stop o l, holed child lost data stop o l -> ~ In OutOfFuel l) /\
  (forall data o l, subholed child lost data o l -> ~ In OutOfFuel l).
Proof.
  apply (holed_mutind child lost (fun data stop o l _ => ~ In OutOfFuel l) (fun data o l _ => ~ In OutOfFuel l)); intros; auto.
  - intros Hin. apply in_app_or in Hin as [Hin|[Hin|Hin]]; [tauto|discriminate|tauto].
  - intros [Hin|[]]. discriminate.
  - intros [Hin|Hin]; [discriminate|tauto].
Qed.

Lemma holed_impl child (lost lost' : Z -> err -> Prop) : (forall v x, lost v x -> lost' v x) ->
  (forall data stop o l, holed child lost data stop o l -> holed child lost' data stop o l) /\ (forall data o l, subholed child lost data o l -> subholed child lost' data o l).
Proof.
  intros Hi. apply (holed_mutind child lost (fun data stop o l _ => holed child lost' data stop o l) (fun data o l _ => subholed child lost' data o l)); intros.
  - now constructor.
  - now apply ho_last.
  - now apply ho_entry.
  - eapply ho_last_lost; eauto.
  - eapply ho_entry_lost; eauto.
  - now constructor.
  - eapply sh_node; eauto.
Qed.

Section ListHoled.
  Context (img : list Z) (nt : ntfs) (ml : list extent) (f : file) (before : list Z) (lo : Z) (after : list Z) (clean : bool)
    (bs offs : list Z) (e : list_end) (vs : list view) (root alloc : list Z).
  Context (Hff : file_with_list img nt ml f before lo after clean bs offs e vs).
  Notation views := (map VBase before ++ vs ++ map VBase after).
  Context (D : listed_directory img nt ml f bs e views root alloc).
  Notation child := (index_child (cluster_size nt) root alloc).
  Notation ld_ix := (ld_ix img nt ml f before after bs e vs root).
  Context (d0 : dev) (Hd0 : d_img d0 = img) (Hint : ~ reports d0 Interrupted).

  (** Both kinds of holes at once: [hole] are the nodes that cannot be read on any device. *)
  Section Holes.
    Context (ix : index) (Hix : ld_ix ix) (G : dev -> Prop) (K : nat) (HGl : forall d1 d2, G d1 -> good img true d2 -> (length (d_reads d2) <= length (d_reads d1))%nat -> G d2).
    Definition hd (d : dev) : Prop := (d_img d = img /\ forall k, reports d k -> reports d0 k) /\ G (without_faults d).
    Context (hole : Z -> Prop)
      (Hsub : forall vcn data d, child vcn data -> G d -> exists d' p, index_subnode K nt ix vcn d = (d', Ok (mkRanges data (24 + field 4 data 24) (24 + field 4 data 28) p)) /\ G d')
      (Hhole : forall vcn d, hole vcn -> G d -> exists d' x, index_subnode K nt ix vcn d = (d', Err x) /\ G d').

    Lemma lh_subnode {A} (due : res A) (call : M A) d : honest_call d call -> (forall d, evolves d (fst (call d))) -> hd d -> (exists e1, call (without_faults d) = (e1, due) /\ G e1) ->
      exists d', hd d' /\ ((call d = (d', due) /\ faults d' = faults d) \/ exists k, reports d0 k /\ call d = (d', Err (EIo k)) /\ S (faults d') = faults d).
    Proof.
      intros H Hev ((Hi0 & Hr0) & HG) (e1 & E & HG1). unfold honest_call, honest in H. rewrite E in H. specialize (Hev d). destruct (call d) as [d1 b]. cbn [fst] in Hev.
      destruct H as (Hi & Hr & H). exists d1.
      assert (Hg1 : hd d1).
      { split; [split; [congruence|auto]|]. destruct H as [(_ & <- & _)|_]; auto. eapply HGl; [exact HG|apply faultfree_good; congruence|].
        rewrite !without_length. now apply evolves_length. }
      split; auto. destruct H as [(-> & _ & Hf)|((k & Hk & ->) & Hf)]; [auto|right; eauto].
    Qed.
    Lemma lh_honest vcn d : hd d -> honest_call d (index_subnode K nt ix vcn).
    Proof. intros ((_ & Hr) & _). apply sim_call. eapply index_subnode_sim; eauto with calm. Qed.

    Lemma lh_traverse l q d : hd d -> holed child (fun v _ => hole v) (root_entries root) (zlen (root_entries root)) 0 l ->
      exists es N, holed child (fun v x => device_lost d0 v x \/ hole v) (root_entries root) (zlen (root_entries root)) 0 (map seen es) /\
        ((forall v, ~ hole v) -> (errors es <= faults d)%nat) /\
        forall k n, (N <= k)%nat -> iterate (with_dev (entries_loop (index_subnode k nt ix) k)) (length es + n) (mkIEs [mkRanges (root_entries root) 0 (zlen (root_entries root)) q] [], d) = map Some es ++ repeat None n.
    Proof.
      intros Hg Hh.
      assert (Hrb : bytes_ok (root_entries root)) by (apply bytes_ok_slice; eapply ld_root_bytes; eauto).
      destruct (holed_traverse (index_subnode K nt ix) hd faults child hole (fun v x => device_lost d0 v x \/ hole v)) with
        (data := root_entries root) (stop := zlen (root_entries root)) (o := 0) (l := l) (p := q) (d := d) as (es & N & H1 & H3 & H2); auto; try lia.
      - intros vcn data Hc. exact (ld_child_ok _ _ _ _ _ _ _ _ _ _ _ _ _ _ Hff D vcn data Hc).
      - intros vcn data d1 Hc Hg1. destruct (Hsub vcn data (without_faults d1) Hc (proj2 Hg1)) as (e1 & p & E & HG1).
        destruct (lh_subnode _ _ d1 (lh_honest vcn d1 Hg1) (index_subnode_evolves K nt ix vcn) Hg1 (ex_intro _ e1 (conj E HG1))) as (d2 & Hg2 & [(E2 & Hm)|(k & Hk & E2 & Hm)]); exists d2; split; auto.
        + left. eauto.
        + right. exists (EIo k). split; auto. split; auto. left. exists k. auto.
      - intros vcn d1 Hc Hg1. destruct (Hhole vcn (without_faults d1) Hc (proj2 Hg1)) as (e1 & x & E & HG1).
        destruct (lh_subnode _ _ d1 (lh_honest vcn d1 Hg1) (index_subnode_evolves K nt ix vcn) Hg1 (ex_intro _ e1 (conj E HG1))) as (d2 & Hg2 & [(E2 & Hm)|(k & Hk & E2 & Hm)]); exists d2.
        + exists x. split; auto. split; auto. split; auto. lia.
        + exists (EIo k). split; auto. split; auto. split; auto. lia.
      - exists es, (N + K)%nat. split; auto. split; auto. intros k n Hk. rewrite <- (H2 k n ltac:(lia)). apply iterate_more.
        + intros [st d1] Hx. unfold with_dev in *. cbn [fst snd] in *. rewrite (entries_loop_more nt ix K k st d1); auto; [lia|].
          destruct (entries_loop _ _ _ _) as [? [? ?]]. exact Hx.
        + rewrite (H2 k n ltac:(lia)). intros Hin. apply in_app_or in Hin as [Hin|Hin]; [|apply repeat_spec in Hin; discriminate].
          apply in_map_iff in Hin as (y & [= ->] & Hin). apply (proj1 (holed_no_fuel _ _) _ _ _ _ H1). change (@OutOfFuel (list Z)) with (seen OutOfFuel). now apply in_map.
    Qed.
  End Holes.

  (** Opening the index. *)
  Lemma lh_open fuel : (length offs + length views + 3 < fuel)%nat -> exists d1 r, directory_index fuel nt f d0 = (d1, r) /\ d_img d1 = img /\
    (forall k, reports d1 k -> reports d0 k) /\ (faults d1 <= faults d0)%nat /\
    ((exists k, reports d0 k /\ r = Err (EIo k)) \/ exists ix, r = Ok ix /\ ld_ix ix).
  Proof.
    intros Hfu. assert (H : honest_call d0 (directory_index fuel nt f)) by (apply sim_call; eapply directory_index_sim; eauto with calm).
    destruct (ld_open _ _ _ _ _ _ _ _ _ _ _ _ _ _ Hff D fuel (without_faults d0) Hfu (without_faultless d0) Hd0) as (e1 & ix & E & Hg & Hix).
    unfold honest_call, honest in H. rewrite E in H. destruct (directory_index fuel nt f d0) as [d1 b]. destruct H as (Hi & Hr & H).
    exists d1, b. split; auto. split; [congruence|]. split; auto.
    destruct H as [(-> & _ & Hf)|((k & Hk & ->) & Hf)]; (split; [lia|]); eauto.
  Qed.
End ListHoled.

(** ** The claims *)
Section Claims.
  Context (img : list Z) (nt : ntfs) (ml : list extent) (f : file) (before : list Z) (lo : Z) (after : list Z) (clean : bool)
    (bs offs : list Z) (e : list_end) (vs : list view) (root alloc : list Z) (fuel : nat) (d : dev).
  Context (Hff : file_with_list img nt ml f before lo after clean bs offs e vs).
  Let views := map VBase before ++ vs ++ map VBase after.
  Context (D : listed_directory img nt ml f bs e views root alloc) (Hfu : (length offs + length views + 3 < fuel)%nat) (Hd : d_img d = img).
  Let child := index_child (cluster_size nt) root alloc.

  Lemma listed_gaps l : index_listing (cluster_size nt) root alloc l -> ~ reports d Interrupted ->
    exists d1 r, directory_index fuel nt f d = (d1, r) /\
    ((exists k, reports d k /\ r = Err (EIo k)) \/
     exists ix, r = Ok ix /\ forall d2, d_img d2 = img -> ~ reports d2 Interrupted ->
     exists es N, (errors es <= faults d2)%nat /\ gapped l (map seen es) /\
       holed child (device_lost d2) (root_entries root) (zlen (root_entries root)) 0 (map seen es) /\
       forall k n, (N <= k)%nat -> iterate (with_dev (entries_next k nt ix)) (length es + n) (index_entries ix, d2) = map Some es ++ repeat None n).
  Proof.
    intros L Hint. destruct (lh_open _ _ _ _ _ _ _ _ _ _ _ _ _ _ Hff D d Hd Hint fuel Hfu) as (d1 & r & E & _ & _ & _ & H). exists d1, r. split; auto.
    destruct H as [H|(ix & -> & Hix)]; [now left|right]. exists ix. split; auto. intros d2 Hd2 Hint2.
    destruct (ld_subnode _ _ _ _ _ _ _ _ _ _ _ _ _ _ Hff D ix (without_faults d2) Hix (faultfree_good img d2 Hd2)) as (G & K & HG & _ & HGl & Hsub).
    pose proof Hix as ((q & Hroot) & _).
    destruct (lh_traverse _ _ _ _ _ _ _ _ _ _ _ _ _ _ Hff D d2 Hint2 ix G K HGl (fun _ => False) Hsub) with (l := map (@Ok (list Z)) l) (q := q) (d := d2)
      as (es & N & H1 & H2 & H3); try (intros; contradiction).
    - split; auto.
    - apply listing_shape. exact L.
    - assert (H1' : holed child (device_lost d2) (root_entries root) (zlen (root_entries root)) 0 (map seen es)).
      { refine (proj1 (holed_impl child (fun v x => device_lost d2 v x \/ False) (device_lost d2) _) _ _ _ _ H1). tauto. }
      exists es, N. split; [apply H2; auto|]. split; [|split; auto].
      + apply (proj1 (holed_gapped child (device_lost d2) (fun v x y => index_child_fun _ _ _ v x y (ld_alloc_bytes _ _ _ _ _ _ _ _ _ _ _ _ _ _ Hff D))) _ _ _ _ L). exact H1'.
      + intros k n Hk. unfold index_entries. rewrite Hroot. exact (H3 k n Hk).
  Qed.

  Context (Hne : root_is_large root = true -> alloc <> []) (Hclear : arrays_clear (cluster_size nt) (root_record_size root) alloc).

  Lemma listed_damaged l : sizes_small (cluster_size nt) (root_record_size root) alloc ->
    holed child (fun v _ => damaged child v) (root_entries root) (zlen (root_entries root)) 0 l -> ~ reports d Interrupted ->
    exists d1 r, directory_index fuel nt f d = (d1, r) /\
    ((exists k, reports d k /\ r = Err (EIo k)) \/
     exists ix, r = Ok ix /\ forall d2, d_img d2 = img -> ~ reports d2 Interrupted ->
     exists es N, holed child (fun v x => device_lost d2 v x \/ damaged child v) (root_entries root) (zlen (root_entries root)) 0 (map seen es) /\
       forall k n, (N <= k)%nat -> iterate (with_dev (entries_next k nt ix)) (length es + n) (index_entries ix, d2) = map Some es ++ repeat None n).
  Proof.
    intros Hsz L Hint. destruct (lh_open _ _ _ _ _ _ _ _ _ _ _ _ _ _ Hff D d Hd Hint fuel Hfu) as (d1 & r & E & _ & _ & _ & H). exists d1, r. split; auto.
    destruct H as [H|(ix & -> & Hix)]; [now left|right]. exists ix. split; auto. intros d2 Hd2 Hint2.
    destruct (ld_sub_total _ _ _ _ _ _ _ _ _ _ _ _ _ _ Hff D Hne Hclear false ix (without_faults d2) (fun _ => Hsz) Hix (faultfree_good img d2 Hd2)) as (G & K & HG & _ & HGl & Hsub).
    assert (Hok : forall vcn data d', child vcn data -> G d' -> exists d'' p, index_subnode K nt ix vcn d' = (d'', Ok (mkRanges data (24 + field 4 data 24) (24 + field 4 data 28) p)) /\ G d'').
    { intros vcn data d' Hc Hg. destruct (Hsub vcn d' Hg) as (d'' & r & Es & Hg' & _ & _ & Hr). destruct (Hr data Hc) as (p & ->). eauto. }
    assert (Hhole : forall vcn d', damaged child vcn -> G d' -> exists d'' x, index_subnode K nt ix vcn d' = (d'', Err x) /\ G d'').
    { intros vcn d' Hc Hg. destruct (Hsub vcn d' Hg) as (d'' & r & Es & Hg' & Hf & Hr & _). destruct r as [g|x| |]; [|eauto|discriminate Hf|destruct Hf].
      destruct (Hr g eq_refl) as (_ & data' & p & Hc' & _). now destruct (Hc data'). }
    pose proof Hix as ((q & Hroot) & _).
    destruct (lh_traverse _ _ _ _ _ _ _ _ _ _ _ _ _ _ Hff D d2 Hint2 ix G K HGl (damaged child) Hok Hhole l q d2) as (es & N & H1 & _ & H3); auto.
    - split; auto.
    - exists es, N. split; auto. intros k n Hk. unfold index_entries. rewrite Hroot. exact (H3 k n Hk).
  Qed.

  Lemma listed_total pan : acyclic child -> (pan = false -> sizes_small (cluster_size nt) (root_record_size root) alloc /\ no_short_entry child (root_entries root)) -> faultless d ->
    exists d1 ix, directory_index fuel nt f d = (d1, Ok ix) /\ d_img d1 = img /\ faultless d1 /\ forall d2, faultless d2 -> d_img d2 = img ->
    (exists N, forall k n, (N <= k)%nat -> Forall (fine_item pan) (iterate (with_dev (entries_next k nt ix)) n (index_entries ix, d2))) /\
    forall X (kp : list Z -> position -> res X) cmp, (forall s p, fine pan (kp s p)) -> (forall k, fine pan (cmp k)) ->
      exists N, forall k, (N <= k)%nat -> fine_item pan (snd (index_find kp cmp k nt ix d2)).
  Proof.
    intros Hac Hpan Hfl. destruct (ld_open _ _ _ _ _ _ _ _ _ _ _ _ _ _ Hff D fuel d Hfu Hfl Hd) as (d1 & ix & E & (G1 & G2) & Hix).
    exists d1, ix. split; auto. split; auto. split; auto. intros d2 F2 I2. assert (Hg : good img true d2) by (split; auto). split.
    - eapply ld_iterate_total; eauto; intros Hp; apply (Hpan Hp).
    - intros X kp cmp H1 H2. eapply ld_find_total; eauto; intros Hp; apply (Hpan Hp).
  Qed.
  Lemma listed_terminates : acyclic child -> faultless d ->
    exists d1 ix, directory_index fuel nt f d = (d1, Ok ix) /\ d_img d1 = img /\ faultless d1 /\ forall d2, faultless d2 -> d_img d2 = img ->
    (exists N, forall k n, (N <= k)%nat -> Forall (fun x => x <> Some OutOfFuel) (iterate (with_dev (entries_next k nt ix)) n (index_entries ix, d2))) /\
    forall X (kp : list Z -> position -> res X) cmp, (forall s p, kp s p <> OutOfFuel) -> (forall k, cmp k <> OutOfFuel) ->
      exists N, forall k, (N <= k)%nat -> snd (index_find kp cmp k nt ix d2) <> Some OutOfFuel.
  Proof.
    intros Hac Hfl. destruct (listed_total true Hac ltac:(discriminate) Hfl) as (d1 & ix & E & G1 & G2 & H). exists d1, ix. split; auto. split; auto. split; auto.
    intros d2 F2 I2. destruct (H d2 F2 I2) as ((N & H1) & H2). split.
    - exists N. intros k n Hk. eapply Forall_impl; [|apply (H1 k n Hk)]. intros x. apply fine_item_true.
    - intros X kp cmp K1 K2. destruct (H2 X kp cmp) as (M & H3); [intros; now apply fine_true|intros; now apply fine_true|]. exists M. intros k Hk. now apply fine_item_true, H3.
  Qed.
  Lemma listed_no_panic : acyclic child -> sizes_small (cluster_size nt) (root_record_size root) alloc -> no_short_entry child (root_entries root) -> faultless d ->
    exists d1 ix, directory_index fuel nt f d = (d1, Ok ix) /\ d_img d1 = img /\ faultless d1 /\ forall d2, faultless d2 -> d_img d2 = img ->
    (exists N, forall k n, (N <= k)%nat -> Forall (fun x => forall r, x = Some r -> returns r) (iterate (with_dev (entries_next k nt ix)) n (index_entries ix, d2))) /\
    forall X (kp : list Z -> position -> res X) cmp, (forall s p, returns (kp s p)) -> (forall k, returns (cmp k)) ->
      exists N, forall k r, (N <= k)%nat -> snd (index_find kp cmp k nt ix d2) = Some r -> returns r.
  Proof.
    intros Hac Hsz Hsh Hfl. destruct (listed_total false Hac ltac:(auto) Hfl) as (d1 & ix & E & G1 & G2 & H). exists d1, ix. split; auto. split; auto. split; auto.
    intros d2 F2 I2. destruct (H d2 F2 I2) as ((N & H1) & H2). split.
    - exists N. intros k n Hk. eapply Forall_impl; [|apply (H1 k n Hk)]. intros x. apply fine_item_false.
    - intros X kp cmp K1 K2. destruct (H2 X kp cmp) as (M & H3); [intros; now apply fine_false|intros; now apply fine_false|]. exists M. intros k r Hk. now apply fine_item_false, H3.
  Qed.
End Claims.
