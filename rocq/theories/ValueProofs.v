(** * Structured values of attributes. *)
From Verif Require Import Base Dev Types Record DataRuns Stream NonResident Resident Attribute File Guid Structured AttrList Spec SpecValues BaseProofs
  DevProofs StreamProofs ReaderProofs ResidentProofs NonResidentProofs AttributeProofs FileProofs StructuredProofs.
From Coq Require Import Lia.

Lemma refines_map {S T} (inj : S -> T) read seek I posf good bs size read' seek' posf' :
  @refines S read seek I posf good bs size ->
  (forall s n d, read' (inj s) n d = let '(d', (s', x)) := read s n d in (d', (inj s', x))) ->
  (forall s f d, seek' (inj s) f d = let '(d', (s', x)) := seek s f d in (d', (inj s', x))) ->
  (forall s, posf' (inj s) = posf s) ->
  refines read' seek' (fun t => exists s, t = inj s /\ I s) posf' good bs size.
Proof.
  intros R Hr Hs Hp. split.
  - intros t (s & -> & Hi). rewrite Hp. apply (rf_pos _ _ _ _ _ _ _ R s Hi).
  - intros t d n (s & -> & Hi) Hg Hn. destruct (rf_read _ _ _ _ _ _ _ R s d n Hi Hg Hn) as (d' & s' & E & H1 & H2 & H3).
    exists d', (inj s'). rewrite Hr, E, !Hp. eauto 10.
  - intros t d sf (s & -> & Hi) Hg Ha. destruct (rf_seek _ _ _ _ _ _ _ R s d sf Hi Hg Ha) as (d' & s' & H1 & H2 & H3).
    exists d', (inj s'). split; auto. split; eauto. rewrite Hp. destruct H3 as [(Hq & E & H4)|(Hq & E & ->)]; [left|right]; rewrite Hs, E; auto.
    rewrite Hp. auto.
Qed.

(** Fresh values and what they contain. *)
Inductive value_of (cs : Z) (img : list Z) : sval -> list Z -> Prop :=
| vo_resident bs p : zlen bs <= U64_MAX -> value_of cs img (SVRes (res_new bs p)) bs
| vo_nonresident l enc p size n : valid_extents cs img l -> encodes 0 l enc -> 0 <= size <= U64_MAX -> size <= extents_size cs l ->
    nr_new cs enc p size = Ok n -> value_of cs img (SVNr n) (file_content cs img l size).

Lemma content_size cs img l size : valid_extents cs img l -> 0 <= size <= extents_size cs l -> zlen (file_content cs img l size) = size.
Proof.
  intros Hv Hs. unfold file_content. rewrite zlen_ztake.
  assert (E : zlen (concat (map (extent_bytes cs img) l)) = extents_size cs l).
  { destruct Hv as [Hcs _ Hf Hd _]. clear Hs. induction l as [|e l IH]; cbn [map concat extents_size]; [reflexivity|].
    inversion Hf as [|? ? (F1 & F2 & F3) Hft]; subst. inversion Hd as [|? ? (D1 & D2) Hdt]; subst. rewrite zlen_app, IH by auto. f_equal.
    unfold extent_bytes. destruct (e_lcn e) as [lcn|].
    - rewrite slice_len; nia.
    - rewrite zlen_zrepeat. nia. }
  lia.
Qed.

Lemma res_read_dev v n d : fst (res_read v n d) = d.
Proof. unfold res_read. destruct (_ =? 0); auto. destruct (idx_range _ _ _); auto. Qed.
Lemma res_seek_dev v sf d : fst (res_seek v sf d) = d.
Proof. unfold res_seek. destruct (seek_contiguous _ _ _). auto. Qed.

Lemma res_refines_any good data p : zlen data <= U64_MAX ->
  refines res_read res_seek (fun v => rv_data v = data /\ rv_position v = p /\ 0 <= rv_sp v <= U64_MAX) res_stream_position good data (zlen data).
Proof.
  intros Hl. destruct (res_refines data p Hl) as [R1 R2 R3]. split; auto.
  - intros s d k Hi Hg Hk. destruct (R2 s d k Hi Logic.I Hk) as (d' & s' & E & H1 & H2 & H3).
    assert (d' = d) by (rewrite <- (res_read_dev s k d), E; reflexivity). subst d'. eauto 10.
  - intros s d k Hi Hg Hk q. destruct (R3 s d k Hi Logic.I Hk) as (d' & s' & _ & H2 & H3). fold q in H3.
    assert (d' = d). { rewrite <- (res_seek_dev s k d). destruct H3 as [(_ & E & _)|(_ & E & _)]; rewrite E; reflexivity. }
    subst d'. eauto 10.
Qed.

(** A fresh value reads as its content, and its length is that of its content. *)
Lemma value_of_reads cs img v bs : value_of cs img v bs ->
  sv_len v = zlen bs /\ 0 <= zlen bs <= U64_MAX /\ sv_stream_position v = 0 /\
  exists I, I v /\ refines sv_read sv_seek I sv_stream_position (good img true) bs (zlen bs).
Proof.
  intros [bs' p Hl|l enc p size n Hv He Hs Hle Hn].
  - split; [reflexivity|]. pose proof (zlen_nonneg bs'). split; [lia|]. split; [reflexivity|].
    eexists. split; [|eapply (refines_map SVRes); [apply (res_refines_any _ bs' p Hl)|reflexivity..]].
    exists (res_new bs' p). split; auto. cbn. split; auto. split; auto. unfold U64_MAX; lia.
  - destruct (nr_extents_new cs img l enc p size Hv He) as (n' & E & Hi & Hp & _). rewrite Hn in E. injection E as <-.
    pose proof (content_size cs img l size Hv ltac:(lia)) as Hz. rewrite Hz. split.
    { cbn. destruct Hi as (rest & Hi). unfold nr_len. apply (inv_size _ _ _ _ _ _ Hi). }
    split; [lia|]. split; [exact Hp|].
    eexists. split; [|eapply (refines_map SVNr); [apply (nr_extents_refines cs img l enc p size Hv He Hs)|reflexivity..]].
    exists n. auto.
Qed.

(** Values of attributes. *)
Lemma attr_content_value cs img f o e bs : bytes_ok (f_data f) -> 0 <= o -> attr_fits (f_data f) o -> attr_content cs img (f_data f) o bs ->
  exists v, attr_value_simple cs (mkAttr f o e) = Ok v /\ value_of cs img v bs.
Proof.
  intros Hb Ho Hf [bs' Hr Hl Hv|l Hr Hl Hro Hv He Hs].
  - destruct (attr_resident_value_spec f Hb o e Ho Hf Hl) as [(bs2 & E & Hv2)|(x & E & Hno)]; [|now destruct (Hno bs')].
    assert (bs2 = bs') by (destruct Hv as (_ & ->), Hv2 as (_ & ->); reflexivity). subst bs2.
    unfold attr_value_simple, attr_is_resident. destruct Hf as (F1 & F2 & F3). rewrite attr_rd_in by lia. cbn [rbind].
    unfold attr_resident_at in Hr. rewrite Hr. cbn [Z.eqb]. rewrite E. cbn [rbind]. eexists. split; [reflexivity|]. constructor.
    destruct Hv as (Hv & ->). pose proof (field2_bound (f_data f) (o + 20) Hb). pose proof (field4_bound (f_data f) (o + 16) Hb).
    pose proof (field4_bound (f_data f) (o + 4) Hb). unfold attr_len_at in *. rewrite slice_len; unfold U64_MAX, U32_MAX in *; lia.
  - rewrite (attr_value_extents f cs o e Hb Ho Hf Hl Hr Hro). pose proof (field8_bound (f_data f) (o + 48) Hb).
    destruct (nr_extents_new cs img l _ (pos_add (f_position f) (o + field 2 (f_data f) (o + 32))) (field 8 (f_data f) (o + 48)) Hv He) as (v & E & _).
    rewrite E. cbn [rbind]. eexists. split; [reflexivity|]. eapply vo_nonresident; eauto.
Qed.

(** [from_aval] on a fresh value: the parser sees a front-to-back reader. *)
Lemma from_aval_ok {A} fuel (new : (Z -> RM aval (list Z)) -> position -> Z -> RM aval A) (P : list Z -> res A -> Prop) cs img v bs d :
  (forall rx At, reads_front rx At bs -> forall p s d, At 0 s d -> P bs (snd (snd (new rx p (zlen bs) s d)))) ->
  value_of cs img v bs -> faultless d -> d_img d = img -> P bs (snd (from_aval fuel new (AVSimple v) d)).
Proof.
  intros Hnew Hv Hf Hi. destruct (value_of_reads cs img v bs Hv) as (Hl & _ & Hp & I & HI & R).
  unfold from_aval. cbn [av_len]. rewrite Hl.
  pose proof (refines_map AVSimple _ _ _ _ _ _ _ (av_read fuel) (av_seek fuel) av_stream_position R ltac:(reflexivity) ltac:(reflexivity) ltac:(reflexivity)) as R'.
  pose proof (reads_front_refines _ _ _ _ _ _ _ (attached_refines _ _ _ _ _ _ _ R')) as Hrx.
  specialize (Hnew (attached_exact (av_read fuel)) _ Hrx (av_data_position (AVSimple v)) (AVSimple v) d).
  destruct (new _ _ _ (AVSimple v) d) as [d' [s' r]]. cbn [snd] in *. apply Hnew.
  split; [eauto|]. split; [|exact Hp]. now split.
Qed.

From Verif Require Import Volume.

Lemma type_known_ty f o e ty : bytes_ok (f_data f) -> 0 <= o -> attr_fits (f_data f) o -> attr_type_at (f_data f) o = ty -> type_known ty ->
  attr_ensure_ty (mkAttr f o e) ty = Ok tt.
Proof.
  intros Hb Ho Hf Ht Hk. unfold attr_ensure_ty. destruct (attr_ty_spec f o e Ho Hf) as (T1 & _). rewrite T1 by (now rewrite Ht). cbn [rbind].
  rewrite Ht, Z.eqb_refl. reflexivity.
Qed.
Lemma wrong_type_ty f o e ty : bytes_ok (f_data f) -> 0 <= o -> attr_fits (f_data f) o -> attr_type_at (f_data f) o <> ty ->
  exists x, attr_ensure_ty (mkAttr f o e) ty = Err x.
Proof.
  intros Hb Ho Hf Ht. unfold attr_ensure_ty. destruct (attr_ty_spec f o e Ho Hf) as (T1 & T2).
  destruct (in_dec Z.eq_dec (attr_type_at (f_data f) o) [16; 32; 48; 64; 80; 96; 112; 128; 144; 160; 176; 192; 208; 224; 240; 256; 4294967295]) as [H|H].
  - rewrite (T1 H). cbn [rbind]. replace (_ =? ty) with false by lia. eauto.
  - rewrite (T2 H). cbn [rbind]. eauto.
Qed.

(** A parser of structured values that is correct on every front-to-back reader. *)
Definition parses {A} (new : forall S, (Z -> RM S (list Z)) -> position -> Z -> RM S A) (decodes : list Z -> A -> Prop) : Prop :=
  forall S rx At bs, bytes_ok bs -> reads_front rx At bs -> forall p s d, At 0 s d -> decodes_exactly decodes bs (snd (snd (new S rx p (zlen bs) s d))).

Lemma si_parses : parses (@si_new) decodes_std_info. Proof. intros S rx At bs Hb H p s d Ha. eapply si_new_ok; eauto. Qed.
Lemma fn_parses : parses (@fn_new) decodes_file_name. Proof. intros S rx At bs Hb H p s d Ha. eapply fn_new_ok; eauto. Qed.
Lemma vi_parses : parses (@vi_new) decodes_vol_info. Proof. intros S rx At bs Hb H p s d Ha. eapply vi_new_ok; eauto. Qed.
Lemma vn_parses : parses (@vn_new) decodes_vol_name. Proof. intros S rx At bs Hb H p s d Ha. eapply vn_new_ok; eauto. Qed.
Lemma oi_parses : parses (@oi_new) decodes_object_id. Proof. intros S rx At bs Hb H p s d Ha. eapply oi_new_ok; eauto. Qed.

Lemma parses_slice {A} new (decodes : list Z -> A -> Prop) bs p : parses new decodes -> bytes_ok bs -> zlen bs <= U64_MAX ->
  decodes_exactly decodes bs (from_slice (new resv) bs p).
Proof.
  intros P Hb Hl. unfold from_slice. eapply P; [auto|apply (cursor_reads_front bs p Hl)|].
  cbn. split; auto. split; auto. split; auto. unfold U64_MAX; lia.
Qed.

Lemma parses_attribute {A} new (decodes : list Z -> A -> Prop) nt img f o ty bs d fuel : parses new decodes ->
  bytes_ok (f_data f) -> bytes_ok bs -> 0 <= o -> attr_fits (f_data f) o -> attr_type_at (f_data f) o = ty -> type_known ty ->
  attr_content (cluster_size nt) img (f_data f) o bs -> faultless d -> d_img d = img ->
  decodes_exactly decodes bs (snd (attr_structured fuel nt (new aval) ty (mkAttr f o None) d)).
Proof.
  intros P Hb Hbs Ho Hf Ht Hk Hc Hd Hi. unfold attr_structured, mbind, mlift. rewrite type_known_ty by auto.
  unfold attr_value. cbn [at_entries]. destruct (attr_content_value _ _ _ _ None _ Hb Ho Hf Hc) as (v & E & Hv).
  unfold mbind, mlift. rewrite E. unfold mret. apply (from_aval_ok fuel (new aval) (decodes_exactly decodes) (cluster_size nt) img); auto.
  intros rx At Hrx p s d' Ha. eapply P; eauto.
Qed.

Lemma resident_len_bound f o bs : bytes_ok (f_data f) -> 0 <= o -> attr_fits (f_data f) o -> attr_value_at (f_data f) o bs -> zlen bs <= U64_MAX /\ bytes_ok bs.
Proof.
  intros Hb Ho (F1 & F2 & F3) (Hv & ->). pose proof (field2_bound (f_data f) (o + 20) Hb). pose proof (field4_bound (f_data f) (o + 16) Hb).
  pose proof (field4_bound (f_data f) (o + 4) Hb). unfold attr_len_at in *. split; [|now apply bytes_ok_slice].
  rewrite slice_len; unfold U64_MAX, U32_MAX in *; lia.
Qed.

(** The fast path for resident values. *)
Lemma parses_resident {A} new (decodes : list Z -> A -> Prop) f o e ty : parses new decodes ->
  bytes_ok (f_data f) -> 0 <= o -> attr_fits (f_data f) o -> o + 22 <= zlen (f_data f) -> type_known ty ->
  (attr_type_at (f_data f) o = ty -> attr_resident_at (f_data f) o -> forall bs, attr_value_at (f_data f) o bs ->
     decodes_exactly decodes bs (resident_structured (new resv) ty (mkAttr f o e))) /\
  (attr_type_at (f_data f) o <> ty \/ ~ attr_resident_at (f_data f) o \/ (forall bs, ~ attr_value_at (f_data f) o bs) ->
     exists x, resident_structured (new resv) ty (mkAttr f o e) = Err x).
Proof.
  intros P Hb Ho Hf Hl Hk. unfold resident_structured, attr_resident_structured.
  assert (Hr : attr_is_resident (mkAttr f o e) = Ok (field 1 (f_data f) (o + 8) =? 0)).
  { unfold attr_is_resident. destruct Hf as (F1 & F2 & F3). rewrite attr_rd_in by lia. reflexivity. }
  split.
  - intros Ht Hres bs Hv. rewrite type_known_ty by auto. cbn [rbind]. rewrite Hr. cbn [rbind]. unfold attr_resident_at in Hres. rewrite Hres. cbn [Z.eqb rbind].
    destruct (attr_resident_value_spec f Hb o e Ho Hf Hl) as [(bs2 & E & Hv2)|(x & E & Hno)]; [|now destruct (Hno bs)].
    assert (bs2 = bs) by (destruct Hv as (_ & ->), Hv2 as (_ & ->); reflexivity). subst bs2. rewrite E. cbn [rbind].
    unfold from_resident, res_new. cbn [rv_data]. destruct (resident_len_bound f o bs Hb Ho Hf Hv). now apply parses_slice.
  - intros Hor. destruct (Z.eq_dec (attr_type_at (f_data f) o) ty) as [Ht|Ht].
    + rewrite type_known_ty by auto. cbn [rbind]. rewrite Hr. cbn [rbind]. destruct (_ =? 0) eqn:E0; [|cbn [rbind]; eauto].
      assert (Hres : attr_resident_at (f_data f) o) by (unfold attr_resident_at; lia).
      destruct (attr_resident_value_spec f Hb o e Ho Hf Hl) as [(bs2 & E & Hv2)|(x & E & Hno)].
      * destruct Hor as [H|[H|H]]; try tauto. now destruct (H bs2).
      * rewrite E. cbn [rbind]. eauto.
    + destruct (wrong_type_ty f o e ty Hb Ho Hf Ht) as (x & ->). cbn [rbind]. eauto.
Qed.

(** The first attribute of a type. *)
Lemma is_other_type data ty o : is_other data ty None None o <-> type_known (attr_type_at data o) /\ attr_type_at data o <> ty.
Proof.
  unfold is_other. split.
  - intros (H1 & [H|[(i & H & _)|(n & bs & H & _)]]); try discriminate. auto.
  - intros (H1 & H2). auto.
Qed.

Lemma find_structured_spec {A} new (decodes : list Z -> A -> Prop) f ty offs clean : parses new decodes -> type_known ty ->
  bytes_ok (f_data f) -> 22 <= zlen (f_data f) -> attr_walk (f_data f) (field 2 (f_data f) 20) offs clean ->
  Forall (fun o => o + 22 <= zlen (f_data f)) offs ->
  let r := find_structured (new resv) ty f None in
  returns r /\
  (clean = true -> Forall (fun o => type_known (attr_type_at (f_data f) o) /\ attr_type_at (f_data f) o <> ty) offs ->
     r = Err (EAttributeNotFound (f_position f) ty)) /\
  (forall l1 o l2, offs = l1 ++ o :: l2 -> Forall (fun o => type_known (attr_type_at (f_data f) o) /\ attr_type_at (f_data f) o <> ty) l1 ->
     attr_type_at (f_data f) o = ty ->
     (attr_resident_at (f_data f) o -> forall bs, attr_value_at (f_data f) o bs -> decodes_exactly decodes bs r) /\
     (~ attr_resident_at (f_data f) o \/ (forall bs, ~ attr_value_at (f_data f) o bs) -> exists x, r = Err x)).
Proof.
  intros P Hk Hb Hl W Hlen r. pose proof (lookup_first f ty None None offs clean Hb Hl W) as L.
  assert (Hs : 0 <= field 2 (f_data f) 20) by (apply field_nonneg; auto).
  unfold r, find_structured, find_resident_structured.
  destruct (find_resident_attribute f ty None None) as [a|e| |] eqn:E; [| |contradiction..]; cbn [rbind].
  - destruct L as (l1 & o & l2 & -> & -> & (Hm & _) & Hoth).
    destruct (walk_fits f _ _ _ _ _ W Hs) as (Ho0 & Hfit).
    apply Forall_app in Hlen as (_ & Hlen). apply Forall_inv in Hlen.
    destruct (parses_resident new decodes f o None ty P Hb Ho0 Hfit Hlen Hk) as (P1 & P2).
    unfold resident_structured in P1, P2. split.
    { specialize (P1 Hm). destruct (Z.eq_dec (field 1 (f_data f) (o + 8)) 0) as [Hr|Hr].
      - destruct (attr_resident_value_spec f Hb o None Ho0 Hfit Hlen) as [(bs & _ & Hv)|(x & _ & Hno)].
        + specialize (P1 Hr bs Hv). destruct (let? v := _ in _); cbn; auto.
        + destruct P2 as (x' & ->); auto. cbn. auto.
      - destruct P2 as (x' & ->); [right; left; exact Hr|]. cbn. auto. }
    split.
    { intros _ Hall. apply Forall_app in Hall as (_ & Hall). apply Forall_inv in Hall. tauto. }
    intros l1' o' l2' Heq Hall Hty.
    assert (o' = o /\ l1' = l1).
    { clear -Heq Hall Hty Hoth Hm. revert l1' Heq Hall. induction l1 as [|x l1 IH]; intros [|y l1'] Heq Hall; cbn in Heq.
      - injection Heq as <- <-. auto.
      - injection Heq as -> Heq. apply Forall_inv in Hall. tauto.
      - injection Heq as -> Heq. apply Forall_inv in Hoth. rewrite is_other_type in Hoth. tauto.
      - injection Heq as -> Heq. destruct (IH (Forall_inv_tail Hoth) l1' Heq (Forall_inv_tail Hall)) as (-> & ->). auto. }
    destruct H as (-> & ->). split; [intros Hr bs Hv; now apply P1|]. intros H. apply P2. tauto.
  - split; [cbn; auto|]. split.
    + intros Hc Hall. destruct L as [(-> & _)|[(Hf & _)|(l1 & o & l2 & -> & Hoth & Hbad)]]; [auto|congruence|].
      apply Forall_app in Hall as (_ & Hall). apply Forall_inv in Hall. destruct Hbad as [Hbad|(_ & _ & H & _)]; tauto.
    + intros l1 o l2 -> Hall Hty. destruct L as [(_ & _ & Hoth)|[(_ & Hoth)|(l1' & o' & l2' & Heq & Hoth & Hbad)]].
      * apply Forall_app in Hoth as (_ & Hoth). apply Forall_inv in Hoth. rewrite is_other_type in Hoth. tauto.
      * apply Forall_app in Hoth as (_ & Hoth). apply Forall_inv in Hoth. rewrite is_other_type in Hoth. tauto.
      * exfalso. clear -Heq Hall Hty Hoth Hbad Hk. revert l1' Heq Hoth. induction l1 as [|x l1 IH]; intros [|y l1'] Heq Hoth; cbn in Heq.
        -- injection Heq as -> ->. destruct Hbad as [Hbad|(_ & _ & H & _)]; [|tauto]. rewrite Hty in Hbad. tauto.
        -- injection Heq as -> Heq. apply Forall_inv in Hoth. rewrite is_other_type in Hoth. tauto.
        -- injection Heq as -> Heq. apply Forall_inv in Hall. destruct Hbad as [Hbad|(H & _)]; tauto.
        -- injection Heq as -> Heq. eapply (IH (Forall_inv_tail Hall)); eauto using Forall_inv_tail.
Qed.

(** The volume's information and name. *)
Lemma volume_info_spec nt d f : snd (ntfs_file nt 3 d) = Ok f -> snd (volume_info nt d) = find_structured (@vi_new resv) TY_VolumeInformation f None.
Proof. unfold volume_info, mbind, mlift. destruct (ntfs_file nt 3 d) as [d' r]. cbn. now intros ->. Qed.

Lemma attr_rd_no_err n a off x : attr_rd n a off <> Err x.
Proof. unfold attr_rd, rd, idx_range. destruct (get_range _ _ _); discriminate. Qed.
Lemma idx_range_no_err (l : list Z) a b x : idx_range l a b <> Err x.
Proof. unfold idx_range. destruct (get_range _ _ _); discriminate. Qed.

Ltac no_rd H := repeat (match type of H with
  | context [attr_rd ?n ?a ?o] => let E := fresh in destruct (attr_rd n a o) eqn:E; cbn [rbind] in H; try discriminate; try (exfalso; exact (attr_rd_no_err _ _ _ _ E))
  | context [idx_range ?l ?a ?o] => let E := fresh in destruct (idx_range l a o) eqn:E; cbn [rbind] in H; try discriminate; try (exfalso; exact (idx_range_no_err _ _ _ _ E))
  | context [if ?b then _ else _] => destruct b; cbn [rbind] in H; try discriminate
  end).
Lemma resident_structured_err f o x ty : attr_resident_structured (mkAttr f o None) ty = Err x -> forall p t, x <> EAttributeNotFound p t.
Proof.
  unfold attr_resident_structured, attr_ensure_ty, attr_ty, attr_is_resident, attr_resident_value, attr_validate_resident, attr_length,
    attr_resident_value_offset, attr_resident_value_length. intros H p t ->. no_rd H.
Qed.

Lemma vn_from_slice bs p : bytes_ok bs -> zlen bs <= U64_MAX ->
  from_slice (@vn_new resv) bs p = if 256 <? zlen bs then Err (EInvalidStructuredValueSize p TY_VolumeName 256 (zlen bs)) else Ok bs.
Proof.
  intros Hb Hl. pose proof (parses_slice _ _ bs p vn_parses Hb Hl) as H. unfold from_slice, vn_new in *. destruct (256 <? zlen bs) eqn:E; [reflexivity|].
  destruct (snd (snd _)) as [v|x| |]; cbn in H; try contradiction.
  - destruct H as (_ & ->). reflexivity.
  - destruct (H bs). split; auto; lia.
Qed.

Lemma split_first {A} (P Q : A -> Prop) (Pdec : forall x, {P x} + {~ P x}) l : Forall Q l ->
  Forall (fun x => Q x /\ ~ P x) l \/ exists l1 x l2, l = l1 ++ x :: l2 /\ P x /\ Forall (fun x => Q x /\ ~ P x) l1.
Proof.
  induction 1 as [|x l Hq Hl [IH|(l1 & y & l2 & -> & Hy & Hl1)]]; [auto| |]; destruct (Pdec x) as [H|H].
  - right. exists [], x, l. auto.
  - left. auto.
  - right. exists [], x, (l1 ++ y :: l2). auto.
  - right. exists (x :: l1), y, l2. auto.
Qed.

Lemma find_structured_first {A} (new : (Z -> RM resv (list Z)) -> position -> Z -> RM resv A) ty f offs clean l1 o l2 : type_known ty ->
  bytes_ok (f_data f) -> 22 <= zlen (f_data f) -> attr_walk (f_data f) (field 2 (f_data f) 20) offs clean ->
  offs = l1 ++ o :: l2 -> Forall (fun o => type_known (attr_type_at (f_data f) o) /\ attr_type_at (f_data f) o <> ty) l1 ->
  attr_type_at (f_data f) o = ty -> find_resident_attribute f ty None None = Ok (mkAttr f o None).
Proof.
  intros Hk Hb Hl W -> Hall Hty. pose proof (lookup_first f ty None None _ clean Hb Hl W) as L.
  destruct (find_resident_attribute f ty None None) as [a|e| |]; [| |contradiction..].
  - destruct L as (l1' & o' & l2' & Heq & -> & (Hm & _) & Hoth). assert (o' = o); [|congruence].
    clear -Heq Hall Hty Hoth Hm. revert l1' Heq Hoth. induction l1 as [|x l1 IH]; intros [|y l1'] Heq Hoth; cbn in Heq.
    + injection Heq as <- <-. auto.
    + injection Heq as -> Heq. apply Forall_inv in Hoth. rewrite is_other_type in Hoth. tauto.
    + injection Heq as -> Heq. apply Forall_inv in Hall. tauto.
    + injection Heq as -> Heq. apply (IH (Forall_inv_tail Hall) l1' Heq (Forall_inv_tail Hoth)).
  - exfalso. destruct L as [(_ & _ & Hoth)|[(_ & Hoth)|(l1' & o' & l2' & Heq & Hoth & Hbad)]].
    + apply Forall_app in Hoth as (_ & Hoth). apply Forall_inv in Hoth. rewrite is_other_type in Hoth. tauto.
    + apply Forall_app in Hoth as (_ & Hoth). apply Forall_inv in Hoth. rewrite is_other_type in Hoth. tauto.
    + clear -Heq Hall Hty Hoth Hbad Hk. revert l1' Heq Hoth. induction l1 as [|x l1 IH]; intros [|y l1'] Heq Hoth; cbn in Heq.
      * injection Heq as -> ->. destruct Hbad as [Hbad|(_ & _ & H & _)]; [|tauto]. rewrite Hty in Hbad. tauto.
      * injection Heq as -> Heq. apply Forall_inv in Hoth. rewrite is_other_type in Hoth. tauto.
      * injection Heq as -> Heq. apply Forall_inv in Hall. destruct Hbad as [Hbad|(H & _)]; tauto.
      * injection Heq as -> Heq. eapply (IH (Forall_inv_tail Hall)); eauto using Forall_inv_tail.
Qed.

Lemma volume_name_spec nt d f offs : snd (ntfs_file nt 3 d) = Ok f -> bytes_ok (f_data f) -> 22 <= zlen (f_data f) ->
  attr_walk (f_data f) (field 2 (f_data f) 20) offs true -> Forall (fun o => o + 22 <= zlen (f_data f)) offs ->
  Forall (fun o => type_known (attr_type_at (f_data f) o)) offs ->
  (snd (volume_name nt d) = None <-> Forall (fun o => attr_type_at (f_data f) o <> 96) offs) /\
  (forall n, snd (volume_name nt d) = Some (Ok n) <->
     exists l1 o l2, offs = l1 ++ o :: l2 /\ Forall (fun o => attr_type_at (f_data f) o <> 96) l1 /\ attr_type_at (f_data f) o = 96 /\
       attr_resident_at (f_data f) o /\ attr_value_at (f_data f) o n /\ zlen n <= 256) /\
  snd (volume_name nt d) <> Some Panic /\ snd (volume_name nt d) <> Some OutOfFuel.
Proof.
  intros E Hb Hl W Hlen Hty. assert (Hk : type_known TY_VolumeName) by (cbn; auto 20).
  assert (Hs : 0 <= field 2 (f_data f) 20) by (apply field_nonneg; auto).
  assert (Ev : snd (volume_name nt d) = match find_structured vn_new TY_VolumeName f None with
           | Ok n => Some (Ok n) | Err (EAttributeNotFound _ _) => None | x => Some x end).
  { unfold volume_name. destruct (ntfs_file nt 3 d) as [d' r]. cbn [snd] in E. rewrite E. reflexivity. }
  rewrite Ev. clear Ev E.
  destruct (find_structured_spec _ _ f TY_VolumeName offs true vn_parses Hk Hb Hl W Hlen) as (_ & Hnone & _).
  destruct (split_first (fun o => attr_type_at (f_data f) o = 96) _ (fun o => Z.eq_dec _ 96) offs Hty) as [H|(l1 & o & l2 & -> & Ho & Hl1)].
  - rewrite (Hnone eq_refl H). split; [split; auto; intros _; eapply Forall_impl; [|exact H]; cbn; tauto|].
    split; [|split; discriminate]. intros n. split; [discriminate|]. intros (l1 & o & l2 & -> & _ & Ho & _). apply Forall_app in H as (_ & H).
    apply Forall_inv in H. tauto.
  - pose proof (find_structured_first (@vn_new resv) TY_VolumeName f _ true l1 o l2 Hk Hb Hl W eq_refl Hl1 Ho) as Ef.
    unfold find_structured, find_resident_structured. rewrite Ef. cbn [rbind].
    destruct (walk_fits f _ _ _ _ _ W Hs) as (Ho0 & Hfit).
    apply Forall_app in Hlen as (_ & Hlen). apply Forall_inv in Hlen.
    assert (Huniq : forall l1' o' l2', l1 ++ o :: l2 = l1' ++ o' :: l2' -> Forall (fun o => attr_type_at (f_data f) o <> 96) l1' -> attr_type_at (f_data f) o' = 96 -> o' = o).
    { clear -Ho Hl1. induction l1 as [|x l1 IH]; intros [|y l1'] o' l2' Heq H1 H2; cbn in Heq; injection Heq as -> Heq.
      - reflexivity.
      - apply Forall_inv in H1. tauto.
      - apply Forall_inv in Hl1. tauto.
      - apply (IH (Forall_inv_tail Hl1) l1' o' l2' Heq (Forall_inv_tail H1) H2). }
    assert (Hnf : ~ Forall (fun o => attr_type_at (f_data f) o <> 96) (l1 ++ o :: l2)).
    { intros H. apply Forall_app in H as (_ & H). apply Forall_inv in H. tauto. }
    destruct (attr_resident_structured (mkAttr f o None) TY_VolumeName) as [v|x| |] eqn:Er; cbn [rbind].
    + unfold attr_resident_structured in Er. rewrite type_known_ty in Er by auto. cbn [rbind] in Er.
      assert (Hr : attr_is_resident (mkAttr f o None) = Ok (field 1 (f_data f) (o + 8) =? 0)).
      { unfold attr_is_resident. destruct Hfit as (F1 & F2 & F3). rewrite attr_rd_in by lia. reflexivity. }
      rewrite Hr in Er. cbn [rbind] in Er. destruct (_ =? 0) eqn:E0; [|discriminate].
      destruct (attr_resident_value_spec f Hb o None Ho0 Hfit Hlen) as [(bs & E & Hv)|(x & E & Hno)]; [|congruence].
      rewrite E in Er. injection Er as <-. destruct (resident_len_bound f o bs Hb Ho0 Hfit Hv) as (Hz & Hbs).
      unfold from_resident, res_new. cbn [rv_data]. rewrite vn_from_slice by auto.
      destruct (256 <? zlen bs) eqn:E256.
      * split; [split; [discriminate|tauto]|]. split; [|split; discriminate]. intros n. split; [discriminate|].
        intros (l1' & o' & l2' & Heq & H1 & H2 & H3 & H4 & H5). pose proof (Huniq _ _ _ Heq H1 H2); subst o'.
        destruct Hv as (_ & ->), H4 as (_ & ->). lia.
      * split; [split; [discriminate|tauto]|]. split; [|split; discriminate]. intros n. split.
        -- intros [= <-]. exists l1, o, l2. split; auto. split; [eapply Forall_impl; [|exact Hl1]; cbn; tauto|].
           unfold attr_resident_at. split; [lia|]. split; [lia|]. split; auto. lia.
        -- intros (l1' & o' & l2' & Heq & H1 & H2 & H3 & H4 & H5). pose proof (Huniq _ _ _ Heq H1 H2); subst o'.
           destruct Hv as (_ & ->), H4 as (_ & ->). reflexivity.
    + pose proof (resident_structured_err f o x _ Er) as Hx.
      lazymatch goal with |- (?m = None <-> _) /\ _ => replace m with (Some (@Err (list Z) x)) by (destruct x; auto; exfalso; eapply Hx; reflexivity) end.
      split; [split; [discriminate|tauto]|]. split; [|split; discriminate]. intros n. split; [discriminate|].
      intros (l1' & o' & l2' & Heq & H1 & H2 & H3 & H4 & H5). pose proof (Huniq _ _ _ Heq H1 H2); subst o'. exfalso.
      unfold attr_resident_structured in Er. rewrite type_known_ty in Er by auto. cbn [rbind] in Er.
      assert (Hr : attr_is_resident (mkAttr f o None) = Ok (field 1 (f_data f) (o + 8) =? 0)).
      { unfold attr_is_resident. destruct Hfit as (F1 & F2 & F3). rewrite attr_rd_in by lia. reflexivity. }
      rewrite Hr in Er. cbn [rbind] in Er. unfold attr_resident_at in H3. rewrite H3 in Er. cbn [Z.eqb] in Er.
      destruct (attr_resident_value_spec f Hb o None Ho0 Hfit Hlen) as [(bs & E & Hv)|(x' & E & Hno)]; [congruence|]. now destruct (Hno n).
    + exfalso. unfold attr_resident_structured in Er. rewrite type_known_ty in Er by auto. cbn [rbind] in Er.
      unfold attr_is_resident in Er. pose proof Hfit as (F1 & F2 & F3). rewrite attr_rd_in in Er by lia. cbn [rbind] in Er. destruct (_ =? 0); [|discriminate].
      destruct (attr_resident_value_spec f Hb o None Ho0 Hfit Hlen) as [(bs & E & Hv)|(x' & E & Hno)]; congruence.
    + exfalso. unfold attr_resident_structured in Er. rewrite type_known_ty in Er by auto. cbn [rbind] in Er.
      unfold attr_is_resident in Er. pose proof Hfit as (F1 & F2 & F3). rewrite attr_rd_in in Er by lia. cbn [rbind] in Er. destruct (_ =? 0); [|discriminate].
      destruct (attr_resident_value_spec f Hb o None Ho0 Hfit Hlen) as [(bs & E & Hv)|(x' & E & Hno)]; congruence.
Qed.

Lemma volume_unreadable nt d e : snd (ntfs_file nt 3 d) = Err e -> snd (volume_info nt d) = Err e /\ snd (volume_name nt d) = Some (Err e).
Proof. unfold volume_info, volume_name, mbind. destruct (ntfs_file nt 3 d) as [d' r]. cbn. intros ->. auto. Qed.
