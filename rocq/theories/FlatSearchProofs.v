(** * Lookup among the attributes of a file with an attribute list. *)
From Verif Require Import Base Dev Types Record DataRuns Stream NonResident Resident Attribute File Guid Structured AttrList Upcase Volume
  Spec SpecIndex SpecMisc SpecValues SpecAttrList BaseProofs DevProofs StreamProofs ReaderProofs ResidentProofs NonResidentProofs AttributeProofs FileProofs
  StructuredProofs ValueProofs MiscProofs EvolveProofs AttrListProofs DirectoryProofs AttrListIterProofs AttrListValueProofs FlatProofs.
From Coq Require Import Lia.

Section Search.
  Context (img : list Z) (nt : ntfs) (ml : list extent) (bs : list Z) (e : list_end) (f : file).
  Notation gd := (good img true).
  Notation shows := (item_is img nt ml bs e f).

  (** What the iteration still shows, whatever the device does and for every fuel from [B] on. *)
  Fixpoint fyields (B : nat) (st : attrs) (vs : list view) (clean : bool) : Prop :=
    match vs with
    | [] => forall k d, (B <= k)%nat -> gd d -> exists d' st' x, gd d' /\
        attrs_next k nt st d = (d', (st', if clean : bool then None else Some (Err x)))
    | v :: vs' => forall k d, (B <= k)%nat -> gd d -> exists d' st' y, gd d' /\
        attrs_next k nt st d = (d', (st', y)) /\ shows v y /\ fyields B st' vs' clean
    end.

  Lemma fyields_mono B B' vs clean : (B <= B')%nat -> forall st, fyields B st vs clean -> fyields B' st vs clean.
  Proof.
    intros HB. induction vs as [|v vs IH]; intros st Y k d Hk Hg; destruct (Y k d ltac:(lia) Hg) as (d' & st' & y & H); [eauto|].
    destruct H as (H1 & H2 & H3 & H4). exists d', st', y. auto.
  Qed.

  (** The attributes can be looked at. *)
  Definition view_ok (v : view) : Prop :=
    match view_at (f_data f) v with Some (data, o) => bytes_ok data /\ 0 <= o /\ attr_fits data o | None => True end /\
    match v with VParts _ _ data a _ => ~ attr_resident_at data a | _ => True end.

  Lemma shows_attribute v y : view_ok v -> shows v y ->
    match view_at (f_data f) v with
    | Some (data, o) => exists i F l, y = Some (Ok i) /\ item_to_attribute i = Ok (mkAttr F o l) /\ f_data F = data /\
        (match v with VParts _ _ _ _ _ => True | _ => l = None end)
    | None => exists x, y = Some (Err x)
    end.
  Proof.
    intros Hv (Sh & _). revert Hv Sh. destruct v as [o|n p data a|n p data a from|]; unfold view_ok; cbn [view_at item_shows]; auto.
    - intros ((Hb & Ho & Hf) & _) ->. do 3 eexists. split; [reflexivity|]. unfold item_to_attribute. cbn. rewrite (proj1 (attr_new_spec f o None Ho) Hf). auto.
    - intros ((Hb & Ho & Hf) & _) ->. do 3 eexists. split; [reflexivity|]. unfold item_to_attribute. cbn.
      rewrite (proj1 (attr_new_spec (mkFile (mkRecord data (Some p)) n) a None Ho) Hf). auto.
    - intros ((Hb & Ho & Hf) & _) (l & -> & _). do 3 eexists. split; [reflexivity|]. unfold item_to_attribute. cbn.
      rewrite (proj1 (attr_new_spec (mkFile (mkRecord data (Some p)) n) a (Some l) Ho) Hf). auto.
  Qed.

  Lemma search_yields {A} (accept : attr_item -> attribute -> M (option A)) (hit : view -> A -> Prop) (pass fail : list Z -> Z -> Prop) B clean :
    forall vs st fuel d, fyields B st vs clean -> gd d -> (B + length vs < fuel)%nat -> Forall view_ok vs ->
    (forall v i F o l d, In v vs -> shows v (Some (Ok i)) -> view_at (f_data f) v = Some (f_data F, o) -> item_to_attribute i = Ok (mkAttr F o l) ->
       (match v with VParts _ _ _ _ _ => True | _ => l = None end) -> view_ok v -> gd d ->
       exists d' r, gd d' /\ accept i (mkAttr F o l) d = (d', r) /\
         match r with Ok (Some x) => hit v x | Ok None => pass (f_data F) o | Err _ => fail (f_data F) o | _ => False end) ->
    search_result (f_data f) vs clean hit pass fail (snd (attrs_search fuel nt accept st d)) /\ gd (fst (attrs_search fuel nt accept st d)).
  Proof.
    induction vs as [|v vs IH]; intros st fuel d Y Hg Hfu Hok Hacc; (destruct fuel as [|k]; [cbn in Hfu; lia|]); cbn [length] in Hfu.
    - destruct (Y (S k) d ltac:(lia) Hg) as (d' & st' & x & G & E). unfold attrs_search; fold (@attrs_search A). rewrite E. destruct clean; cbn [fst snd]; split; cbn; auto.
    - destruct (Y (S k) d ltac:(lia) Hg) as (d' & st' & y & G & E & Sh & Y'). unfold attrs_search; fold (@attrs_search A). rewrite E.
      inversion Hok as [|? ? Hv Hvs]; subst. pose proof (shows_attribute v y Hv Sh) as Ha. destruct (view_at (f_data f) v) as [[data o]|] eqn:Ev.
      + destruct Ha as (i & F & l & -> & Ei & <- & Hl). rewrite Ei.
        destruct (Hacc v i F o l d' (or_introl eq_refl) Sh Ev Ei Hl Hv G) as (d2 & r & G2 & Er & Hr). rewrite Er.
        assert (Hp : match r with Ok None => at_view (f_data f) pass v | _ => True end) by (destruct r as [[|]| | |]; auto; unfold at_view; now rewrite Ev).
        destruct r as [[x|]|x| |]; try contradiction.
        * split; [|exact G2]. exists [], v, vs. auto.
        * destruct (IH st' k d2 Y' G2 ltac:(lia) Hvs (fun v0 i0 F0 o0 l0 d0 H => Hacc v0 i0 F0 o0 l0 d0 (or_intror H))) as (IH1 & IH2). split; [|exact IH2]. clear IH2.
          destruct (snd (attrs_search k nt accept st' d2)) as [[x|]|x| |]; cbn [search_result] in *; auto.
          -- destruct IH1 as (v1 & w & v2 & -> & H1 & H2). exists (v :: v1), w, v2. auto.
          -- destruct IH1. auto.
          -- destruct IH1 as [(H1 & H2)|(v1 & w & v2 & -> & H1 & H2)]; [left; auto|]. right. exists (v :: v1), w, v2. auto.
        * split; [|exact G2]. right. exists [], v, vs. split; auto. split; auto. right. unfold at_view. now rewrite Ev.
      + destruct Ha as (x & ->). split; [|exact G]. right. exists [], v, vs. auto.
  Qed.
End Search.

Section Yields.
  Context (img : list Z) (nt : ntfs) (mp : Z) (mdata : list Z) (ml : list extent) (bs : list Z) (e : list_end) (f : file).
  Context (Hb : bytes_ok img) (Hmp : mft_position nt = Some mp) (Hfr : 32 <= file_record_size nt <= U16_MAX)
    (Hm : mft_at img mp (file_record_size nt) mdata ml) (Hml : valid_extents (cluster_size nt) img ml).
  Context (Hbs : bytes_ok bs) (Hfb : bytes_ok (f_data f)) (Hend : ends_well e = true).
  Notation gd := (good img true).
  Notation yields := (fyields img nt ml bs e f).

  Lemma yields_tail off offs b : attr_walk (f_data f) off offs b -> 0 <= off -> Forall (fun o => attr_type_at (f_data f) o <> TY_AttributeList) offs ->
    forall l skip, lyields img bs l [] true -> yields 1 (mkAttrs f off (Some l) skip) (map VBase offs) b.
  Proof.
    intros W. assert (W0 := W). induction W as [off H|off H Hmk|off H Hmk Hf|off offs b Hmk Hf W IH]; intros Ho Hl l skip Y; destruct (raw_next_spec f off Ho) as (S1 & S2 & S3 & S4);
      intros [|k] d Hk Hg; try lia; destruct (flat_raw img nt bs e f l skip off _ _ d Y W0 Ho Hl Hg) as (d' & G & E); specialize (E k).
    - rewrite (S1 H) in E. exists d'. eexists. exists EInvalidTime. split; auto. exact E.
    - rewrite (S2 H Hmk) in E. exists d'. eexists. exists EInvalidTime. split; auto. exact E.
    - destruct (S3 H Hmk Hf) as (x & Ex). rewrite Ex in E. exists d'. eexists. exists x. split; auto. exact E.
    - rewrite (S4 Hmk Hf) in E. pose proof Hf as (F1 & F2 & F3). do 3 eexists. split; [exact G|]. split; [exact E|]. split; [split; [reflexivity|exact Logic.I]|].
      apply IH; auto; [lia|now inversion Hl].
  Qed.

  Lemma yields_list off offs b B : attr_walk (f_data f) off offs b -> 0 <= off -> Forall (fun o => attr_type_at (f_data f) o <> TY_AttributeList) offs ->
    forall vs cur ents l, (length ents < B)%nat -> listed img nt ml bs (f_number f) cur ents vs -> lyields img bs l ents true ->
    yields B (mkAttrs f off (Some l) (skip_of cur)) (vs ++ map VBase offs) b.
  Proof.
    intros W Ho Hl. induction vs as [|v vs IH]; intros cur ents l Hk L Y.
    - cbn [app]. pose proof (fun l skip Y => yields_tail off offs b W Ho Hl l skip Y) as Ht.
      assert (Hstep : forall k d, (B <= k)%nat -> gd d -> exists d' l' k' cur', gd d' /\ lyields img bs l' [] true /\
        attrs_next k nt (mkAttrs f off (Some l) (skip_of cur)) d = attrs_next (S k') nt (mkAttrs f off (Some l') (skip_of cur')) d').
      { intros k d HB Hg. pose proof (flat_step img nt mp mdata ml bs e f Hb Hmp Hfr Hm Hml Hbs Hfb cur ents [] L l k off d ltac:(now rewrite Hend) Hg ltac:(lia)) as K. cbv iota in K. now rewrite Hend in K. }
      destruct offs as [|o offs]; cbn [map fyields]; intros k d HB Hg; destruct (Hstep k d HB Hg) as (d1 & l' & k' & cur' & G1 & Y' & E);
        destruct (Ht l' (skip_of cur') Y' (S k') d1 (le_n_S _ _ (Nat.le_0_l _)) G1) as (d' & st' & y & H).
      + rewrite E. eauto.
      + destruct H as (H1 & H2 & H3 & H4). rewrite E. exists d', st', y. splits; auto. eapply fyields_mono; [|exact H4]. lia.
    - cbn [app fyields]. intros k d HB Hg.
      destruct (flat_step img nt mp mdata ml bs e f Hb Hmp Hfr Hm Hml Hbs Hfb cur ents (v :: vs) L l k off d ltac:(now rewrite Hend) Hg ltac:(lia)) as (d' & l' & cur' & offs' & y & E & Sh & G & Y' & L' & Hle).
      rewrite Hend in Y'.
      exists d'. eexists. exists y. split; auto. split; [exact E|]. split; auto. apply (IH cur' offs' l'); auto. lia.
  Qed.
End Yields.

(** The attributes before the list. *)
Lemma yields_before img nt ml bs e f lo vs clean B : (0 < B)%nat -> fyields img nt ml bs e f B (mkAttrs f lo None None) vs clean ->
  forall before after b off, Forall (fun o => attr_type_at (f_data f) o <> TY_AttributeList) before -> 0 <= off -> attr_walk (f_data f) off (before ++ lo :: after) b ->
  fyields img nt ml bs e f B (mkAttrs f off None None) (map VBase before ++ vs) clean.
Proof.
  intros HB Hstart. induction before as [|o before IH]; intros after b off Hbe H0 W.
  - cbn [app map]. cbn [app] in W. assert (off = lo) as -> by (inversion W; auto). exact Hstart.
  - cbn [app] in W. inversion W as [| | |? l ? Hmk Hf W']; subst. pose proof Hf as (F1 & F2 & F3). inversion Hbe as [|? ? Hty Hbe']; subst.
    cbn [app map fyields]. intros [|k] d Hk Hg; [lia|]. exists d. do 2 eexists. split; auto. cbn [attrs_next ax_list ax_file ax_raw ax_skip].
    destruct (raw_next_spec f o H0) as (_ & _ & _ & S4). rewrite (S4 Hmk Hf). cbn [at_offset].
    destruct (attr_ty_spec f o None H0 Hf) as (T1 & T2).
    destruct (in_dec Z.eq_dec (attr_type_at (f_data f) o) [16; 32; 48; 64; 80; 96; 112; 128; 144; 160; 176; 192; 208; 224; 240; 256; 4294967295]) as [K|K].
    + rewrite (T1 K). unfold TY_AttributeList in *. replace (attr_type_at (f_data f) o =? 32) with false by lia. split; [reflexivity|]. split; [split; [reflexivity|exact Logic.I]|]. eapply IH; eauto. lia.
    + rewrite (T2 K). split; [reflexivity|]. split; [split; [reflexivity|exact Logic.I]|]. eapply IH; eauto. lia.
Qed.

(** The step into the list. *)
Lemma step_into_list nt f lo v : 0 <= lo -> ~ end_marker (f_data f) lo -> attr_fits (f_data f) lo -> attr_type_at (f_data f) lo = 32 ->
  attr_value_simple (cluster_size nt) (mkAttr f lo None) = Ok v -> forall k d,
  attrs_next (S k) nt (mkAttrs f lo None None) d = attrs_next k nt (mkAttrs f (lo + attr_len_at (f_data f) lo) (Some (alist_of_sval v)) (skip_of None)) d.
Proof.
  intros Hlo Hmk Hfit Hty Ev k d. cbn [attrs_next ax_list ax_file ax_raw ax_skip]. destruct (raw_next_spec f lo Hlo) as (_ & _ & _ & S4). rewrite (S4 Hmk Hfit).
  destruct (attr_ty_spec f lo None Hlo Hfit) as (T1 & _). rewrite Hty in T1. rewrite T1 by (cbn; tauto). change (32 =? TY_AttributeList) with true.
  cbn match. rewrite Ev. reflexivity.
Qed.

Lemma yields_step img nt ml bs e f B st1 st2 vs clean : (forall k d, attrs_next (S k) nt st1 d = attrs_next k nt st2 d) ->
  fyields img nt ml bs e f B st2 vs clean -> fyields img nt ml bs e f (S B) st1 vs clean.
Proof.
  intros Estep K. destruct vs as [|w ws]; intros [|k] d Hk Hg; try lia; rewrite Estep; destruct (K k d ltac:(lia) Hg) as (d' & st' & y & H).
  - eauto.
  - destruct H as (H1 & H2 & H3 & H4). exists d', st', y. splits; auto. eapply fyields_mono; [|exact H4]. lia.
Qed.

Lemma base_views_ok f off offs b l : bytes_ok (f_data f) -> 0 <= off -> attr_walk (f_data f) off offs b -> incl l offs -> Forall (view_ok f) (map VBase l).
Proof.
  intros Hfb H0 W Hi. apply Forall_map, Forall_forall. intros o Ho. destruct (walk_in f _ _ _ o W H0 (Hi o Ho)). split; cbn; auto.
Qed.

Lemma listed_views_ok img nt ml bs f cur ents vs : bytes_ok img -> listed img nt ml bs (f_number f) cur ents vs -> Forall (view_ok f) vs.
Proof.
  intros Hb L. assert (Hloc : forall o p data a, record_stored img nt ml (entry_number bs o) p data -> locates data (entry_type bs o) (entry_instance bs o) a ->
    bytes_ok data /\ 0 <= a /\ attr_fits data a).
  { intros o p data a [R1 R2 R3 R4 (R5 & R6)] (b1 & b2 & b & W & _). assert (Hdb : bytes_ok data) by (eapply stored_bytes_ok; [|exact R5]; now apply bytes_ok_slice).
    split; auto. apply (walk_in (mkFile (mkRecord data None) 0) _ _ _ a W); [apply field_nonneg; auto|]. apply in_or_app. right. now left. }
  induction L; auto; constructor; auto; split; cbn; auto; exact (Hloc _ _ _ _ H0 H1).
Qed.

(** The iteration over the attributes of [f] shows [views]. *)
Definition file_shows img nt ml f bs e (N : nat) views clean : Prop :=
  attrs_start f = Ok (mkAttrs f (field 2 (f_data f) 20) None None) /\
  fyields img nt ml bs e f N (mkAttrs f (field 2 (f_data f) 20) None None) views clean /\
  Forall (view_ok f) views.

Lemma file_yields img nt ml f before lo after clean bs offs e vs : file_with_list img nt ml f before lo after clean bs offs e vs ->
  file_shows img nt ml f bs e (length offs + 3) (map VBase before ++ vs ++ map VBase after) clean.
Proof.
  intros [Hb (mp & mdata & Hmp & Hm) Hfr Hml (Hfb & H22) Hp W Hbe Haf Hty Hc Hl Wl Hend L].
  split; [now apply attrs_start_eq|]. pose proof (field_nonneg 2 (f_data f) 20 Hfb) as H0.
  destruct (flat_before nt f lo after clean before _ W H0 Hbe) as (W2 & Hlo & _).
  inversion W2 as [| | |? ? ? Hmk Hfit W3]; subst. pose proof Hfit as (F1 & F2 & F3).
  destruct (flat_open img nt f lo bs offs e Hb Hfb Hlo Hfit Hp Hc Hl Wl) as (Hbs & v & Ev & Y).
  assert (Hew : ends_well e = true) by (destruct e; auto; now destruct Hend). rewrite Hew in Y.
  assert (Hle : (length (entries_of (f_data f) lo offs e) <= length offs + 1)%nat).
  { unfold entries_of. destruct (_ =? 0); [lia|]. destruct e; cbn [with_cut]; rewrite ?app_length; cbn [length]; lia. }
  split.
  - eapply yields_before; eauto; [lia|]. replace (length offs + 3)%nat with (S (length offs + 2)) by lia.
    eapply yields_step; [exact (step_into_list nt f lo v Hlo Hmk Hfit Hty Ev)|].
    apply (yields_list img nt mp mdata ml bs e f Hb Hmp Hfr Hm Hml Hbs Hfb Hew _ after clean (length offs + 2) W3 ltac:(lia) Haf vs None _ (alist_of_sval v)
        ltac:(apply Nat.le_lt_trans with (1 := Hle); lia) L Y).
  - apply Forall_app. split; [|apply Forall_app; split].
    + apply (base_views_ok f _ _ _ _ Hfb H0 W). intros o Hi. apply in_or_app; auto.
    + eapply listed_views_ok; [exact Hb|exact L].
    + apply (base_views_ok f _ _ _ _ Hfb H0 W). intros o Hi. apply in_or_app. right. now right.
Qed.

Lemma find_shows_item img nt ml f bs e N views clean ty name fuel d : file_shows img nt ml f bs e N views clean ->
  faultless d -> d_img d = img -> (N + length views < fuel)%nat ->
  exists r, search_result (f_data f) views clean (fun v i => item_is img nt ml bs e f v (Some (Ok i)) /\ at_view (f_data f) (fun data o => is_match data ty name None o) v)
      (fun data o => is_other data ty name None o) (fun data o => is_malformed data ty name None o) r /\
    snd (find_attribute fuel nt f ty name d) = (let? x := r in match x with Some i => Ok i | None => Err (EAttributeNotFound (f_position f) ty) end) /\
    good img true (fst (find_attribute fuel nt f ty name d)).
Proof.
  intros Hff Hf Hi Hfu. destruct Hff as (Es & Y & Ok0).
  unfold find_attribute. rewrite Es. unfold mbind. change (mlift (Ok (mkAttrs f (field 2 (f_data f) 20) None None)) d) with (d, Ok (mkAttrs f (field 2 (f_data f) 20) None None)). cbv iota beta.
  set (accept := fun (i : attr_item) (a : attribute) => mlift (let? m := attr_matches a ty name None in Ok (if (m : bool) then Some i else None))). exists (snd (attrs_search fuel nt accept (mkAttrs f (field 2 (f_data f) 20) None None) d)).
  match goal with |- ?P /\ _ => assert (HS : P /\ good img true (fst (attrs_search fuel nt accept (mkAttrs f (field 2 (f_data f) 20) None None) d))) end.
  - eapply search_yields; [exact Y|split; auto|lia|exact Ok0|]. intros v i F o l d1 Hin Sh Ev Ei Hl (Hv & _) G. rewrite Ev in Hv. destruct Hv as (Hb & Ho & Hfit).
    exists d1. eexists. split; auto. split; [reflexivity|]. change (attr_matches (mkAttr F o l) ty name None) with (attr_matches (mkAttr F o None) ty name None).
    pose proof (attr_matches_spec F Hb o ty name None Ho Hfit) as M. destruct (attr_matches _ _ _ _) as [[|]|x| |]; cbn [rbind]; auto.
    split; auto. unfold at_view. rewrite Ev. apply M.
  - destruct HS as (H1 & H2). split; [exact H1|]. clear H1. revert H2. destruct (attrs_search _ _ _ _ _) as [d1 [[x|]|x| |]]; cbn [fst snd]; split; auto.
Qed.

Lemma find_shows img nt ml f bs e N views clean ty name fuel d : file_shows img nt ml f bs e N views clean ->
  faultless d -> d_img d = img -> (N + length views < fuel)%nat ->
  exists r, search_result (f_data f) views clean (fun v i => item_shows img nt ml bs e f v (Some (Ok i)) /\ at_view (f_data f) (fun data o => is_match data ty name None o) v)
      (fun data o => is_other data ty name None o) (fun data o => is_malformed data ty name None o) r /\
    snd (find_attribute fuel nt f ty name d) = let? x := r in match x with Some i => Ok i | None => Err (EAttributeNotFound (f_position f) ty) end.
Proof.
  intros Hff Hf Hi Hfu. destruct (find_shows_item _ _ _ _ _ _ _ _ _ ty name fuel d Hff Hf Hi Hfu) as (r & H & E & _). exists r. split; auto.
  destruct r as [[x|]|x| |]; cbn [search_result] in *; auto. destruct H as (v1 & v & v2 & E1 & H1 & (H2 & _) & H3). exists v1, v, v2. auto.
Qed.

Lemma data_shows img nt ml f bs e N views clean t stream fuel d : file_shows img nt ml f bs e N views clean ->
  stream = [] \/ upcase_table nt = Some t /\ zlen t = 65536 /\ Forall unit_ok stream ->
  faultless d -> d_img d = img -> (N + length views < fuel)%nat ->
  search_result (f_data f) views clean (fun v i => item_shows img nt ml bs e f v (Some (Ok i)) /\ at_view (f_data f) (fun data o => is_stream data t stream o) v)
      (fun data o => not_stream data t stream o) (fun data o => malformed_stream data o) (snd (file_data fuel nt f stream d)).
Proof.
  intros Hff Hst Hf Hi Hfu. destruct Hff as (Es & Y & Ok0).
  unfold file_data. unfold mbind at 1, mlift at 1. rewrite Es.
  eapply proj1. eapply search_yields; [exact Y|split; auto|lia|exact Ok0|]. intros v i F o l d1 Hin Sh Ev Ei Hl (Hv & _) G. rewrite Ev in Hv. destruct Hv as (Hb & Ho & Hfit).
  exists d1. eexists. split; auto. split; [reflexivity|]. change (data_accepts nt stream i (mkAttr F o l)) with (data_accepts nt stream i (mkAttr F o None)).
  pose proof (data_accepts_spec nt F t stream o i Hb Ho Hfit Hst) as M. destruct (data_accepts _ _ _ _) as [[x|]|x| |]; auto.
  destruct M as (-> & M). split; [apply Sh|]. unfold at_view. now rewrite Ev.
Qed.

Lemma name_shows img nt ml f bs e N views clean ns parent fuel d : file_shows img nt ml f bs e N views clean ->
  Forall (fun v => v = VBroken \/ at_view (f_data f) (fun data o => attr_type_at data o = 48 -> attr_resident_at data o /\ o + 22 <= zlen data) v) views ->
  faultless d -> d_img d = img -> (N + length views < fuel)%nat ->
  search_result (f_data f) views clean (fun v x => at_view (f_data f) (fun data o => is_name data ns parent o x) v)
      (fun data o => not_name data ns parent o) (fun data o => malformed_name data o) (snd (file_name_of fuel nt f ns parent d)).
Proof.
  intros Hff Hres Hf Hi Hfu. destruct Hff as (Es & Y & Ok0).
  change (file_name_of fuel nt f ns parent) with (try st <- attrs_start f; attrs_search fuel nt (name_accepts fuel nt ns parent) st).
  unfold mbind at 1, mlift at 1. rewrite Es.
  eapply proj1. eapply search_yields; [exact Y|split; auto|lia|exact Ok0|]. intros v i F o l d1 Hin Sh Ev Ei Hl (Hv & Hnr) G. rewrite Ev in Hv. destruct Hv as (Hb & Ho & Hfit).
  exists d1. rewrite Forall_forall in Hres. destruct (Hres v Hin) as [->|R]; [discriminate|]. unfold at_view in R. rewrite Ev in R.
  assert (H : name_accepts fuel nt ns parent i (mkAttr F o l) d1 = name_accepts fuel nt ns parent i (mkAttr F o None) d1).
  { destruct v as [| |n p data a from|]; try (now rewrite Hl). injection Ev as -> ->. 
    unfold name_accepts. unfold mbind at 1 4, mlift at 1 3. change (attr_ty (mkAttr F o l)) with (attr_ty (mkAttr F o None)). destruct (attr_ty_spec F o None Ho Hfit) as (T1 & T2).
    destruct (in_dec Z.eq_dec (attr_type_at (f_data F) o) [16; 32; 48; 64; 80; 96; 112; 128; 144; 160; 176; 192; 208; 224; 240; 256; 4294967295]) as [K|K]; [rewrite (T1 K)|rewrite (T2 K); auto].
    unfold TY_FileName. destruct (attr_type_at (f_data F) o =? 48) eqn:E48; cbn [negb]; auto. apply Z.eqb_eq in E48. exfalso. now apply Hnr, (R E48). }
  rewrite H. destruct (name_accepts_spec fuel nt F ns parent o i d1 Hb Ho Hfit R) as (r & E & Hr). exists r. split; auto. split; auto.
  destruct r as [[x|]|x| |]; auto. unfold at_view. now rewrite Ev.
Qed.

Lemma find_flat_item img nt ml f before lo after clean bs offs e vs ty name fuel d : file_with_list img nt ml f before lo after clean bs offs e vs ->
  let views := map VBase before ++ vs ++ map VBase after in
  faultless d -> d_img d = img -> (length offs + length views + 3 < fuel)%nat ->
  exists r, search_result (f_data f) views clean (fun v i => item_is img nt ml bs e f v (Some (Ok i)) /\ at_view (f_data f) (fun data o => is_match data ty name None o) v)
      (fun data o => is_other data ty name None o) (fun data o => is_malformed data ty name None o) r /\
    snd (find_attribute fuel nt f ty name d) = (let? x := r in match x with Some i => Ok i | None => Err (EAttributeNotFound (f_position f) ty) end) /\
    good img true (fst (find_attribute fuel nt f ty name d)).
Proof. intros Hff views; intros. apply (find_shows_item img nt ml f bs e (length offs + 3)); auto; [eapply file_yields; eassumption|]. lia. Qed.

Lemma find_flat img nt ml f before lo after clean bs offs e vs ty name fuel d : file_with_list img nt ml f before lo after clean bs offs e vs ->
  let views := map VBase before ++ vs ++ map VBase after in
  faultless d -> d_img d = img -> (length offs + length views + 3 < fuel)%nat ->
  exists r, search_result (f_data f) views clean (fun v i => item_shows img nt ml bs e f v (Some (Ok i)) /\ at_view (f_data f) (fun data o => is_match data ty name None o) v)
      (fun data o => is_other data ty name None o) (fun data o => is_malformed data ty name None o) r /\
    snd (find_attribute fuel nt f ty name d) = let? x := r in match x with Some i => Ok i | None => Err (EAttributeNotFound (f_position f) ty) end.
Proof. intros Hff views; intros. apply (find_shows img nt ml f bs e (length offs + 3)); auto; [eapply file_yields; eassumption|]. lia. Qed.

Lemma data_flat img nt ml f before lo after clean bs offs e vs t stream fuel d : file_with_list img nt ml f before lo after clean bs offs e vs ->
  let views := map VBase before ++ vs ++ map VBase after in
  stream = [] \/ upcase_table nt = Some t /\ zlen t = 65536 /\ Forall unit_ok stream ->
  faultless d -> d_img d = img -> (length offs + length views + 3 < fuel)%nat ->
  search_result (f_data f) views clean (fun v i => item_shows img nt ml bs e f v (Some (Ok i)) /\ at_view (f_data f) (fun data o => is_stream data t stream o) v)
      (fun data o => not_stream data t stream o) (fun data o => malformed_stream data o) (snd (file_data fuel nt f stream d)).
Proof. intros Hff views; intros. apply (data_shows img nt ml f bs e (length offs + 3)); auto; [eapply file_yields; eassumption|]. lia. Qed.

Lemma name_flat img nt ml f before lo after clean bs offs e vs ns parent fuel d : file_with_list img nt ml f before lo after clean bs offs e vs ->
  let views := map VBase before ++ vs ++ map VBase after in
  Forall (fun v => v = VBroken \/ at_view (f_data f) (fun data o => attr_type_at data o = 48 -> attr_resident_at data o /\ o + 22 <= zlen data) v) views ->
  faultless d -> d_img d = img -> (length offs + length views + 3 < fuel)%nat ->
  search_result (f_data f) views clean (fun v x => at_view (f_data f) (fun data o => is_name data ns parent o x) v)
      (fun data o => not_name data ns parent o) (fun data o => malformed_name data o) (snd (file_name_of fuel nt f ns parent d)).
Proof. intros Hff views; intros. apply (name_shows img nt ml f bs e (length offs + 3)); auto; [eapply file_yields; eassumption|]. lia. Qed.
