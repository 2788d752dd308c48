(** * Attributes. *)
From Coq Require Import Lia.
From Verif Require Import Base Dev Types Record DataRuns Stream NonResident Resident Attribute Spec BaseProofs DataRunsProofs.

Lemma known_type_spec ty : known_type ty = true <-> type_known ty.
Proof.
  unfold known_type, type_known, TY_End. split.
  - intros H. destruct (Z.eq_dec ty 4294967295) as [->|Hne]; [cbn; tauto|].
    assert (H' : 16 <= ty <= 256 /\ ty mod 16 = 0) by lia. destruct H' as (H1 & H2).
    assert (E : ty = 16 * (ty / 16)) by (pose proof (Z.div_mod ty 16); lia).
    assert (1 <= ty / 16 <= 16) by lia. rewrite E. clear - H0.
    assert (Hc : In (ty / 16) [1;2;3;4;5;6;7;8;9;10;11;12;13;14;15;16]) by (cbn; lia).
    cbn in Hc. repeat (destruct Hc as [<-|Hc]; [cbn; tauto|]). destruct Hc.
  - cbn. intros H. repeat (destruct H as [<-|H]; [reflexivity|]). destruct H.
Qed.

Section Attr.
  Context (f : file) (Hb : bytes_ok (f_data f)).
  Notation data := (f_data f).

  Lemma attr_rd_in n off k e : 0 <= off -> 0 <= k -> 0 <= n -> off + k + n <= zlen data ->
    attr_rd n (mkAttr f off e) k = Ok (field n data (off + k)).
  Proof. intros. unfold attr_rd. cbn [at_file at_offset]. apply rd_in; lia. Qed.

  Lemma attr_new_spec off e : 0 <= off ->
    (attr_fits data off -> attr_new f off e = Ok (mkAttr f off e)) /\
    (~ attr_fits data off -> exists x, attr_new f off e = Err x).
  Proof.
    intros Ho. unfold attr_new, attr_validate_length, attr_fits, attr_len_at, ATTRIBUTE_HEADER_SIZE. cbn [at_file at_offset].
    destruct (Z.max 0 (zlen data - off) <? 16) eqn:E1.
    - split; [intros; lia|]. intros _. cbn [rbind]. eauto.
    - unfold attr_length. rewrite attr_rd_in by lia. cbn [rbind].
      destruct (field 4 data (off + 4) <? 16) eqn:E2; [split; [intros; lia|intros _; cbn [rbind]; eauto]|].
      destruct (Z.max 0 (zlen data - off) <? field 4 data (off + 4)) eqn:E3; cbn [rbind]; split; intros; eauto; lia.
  Qed.

  Lemma raw_next_spec off : 0 <= off ->
    (zlen data < off + 4 -> raw_next f off = (off, None)) /\
    (off + 4 <= zlen data -> end_marker data off -> raw_next f off = (off, None)) /\
    (off + 4 <= zlen data -> ~ end_marker data off -> ~ attr_fits data off -> exists x, raw_next f off = (off, Some (Err x))) /\
    (~ end_marker data off -> attr_fits data off ->
       raw_next f off = (off + attr_len_at data off, Some (Ok (mkAttr f off None)))).
  Proof.
    intros Ho. unfold raw_next, end_marker. repeat split.
    - intros H. replace (get_range data off (off + 4)) with (@None (list Z)); auto. symmetry. apply get_range_none. lia.
    - intros H Hm. rewrite get_range_in by lia. unfold field in Hm. rewrite Hm. reflexivity.
    - intros H Hm Hf. rewrite get_range_in by lia. unfold field in Hm. unfold TY_End.
      replace (le_val _ =? 4294967295) with false by lia. destruct (proj2 (attr_new_spec off None Ho) Hf) as (x & ->). eauto.
    - intros Hm Hf. pose proof Hf as (H1 & H2 & H3). rewrite get_range_in by lia. unfold field in Hm. unfold TY_End.
      replace (le_val _ =? 4294967295) with false by lia. rewrite (proj1 (attr_new_spec off None Ho) Hf).
      unfold attr_length. rewrite attr_rd_in by lia. reflexivity.
  Qed.

  Lemma walk_total off : 0 <= off -> exists l b, attr_walk data off l b.
  Proof.
    remember (Z.to_nat (zlen data - off)) as m eqn:Em. revert off Em.
    induction m as [m IH] using lt_wf_ind. intros off Em Ho.
    destruct (Z_lt_le_dec (zlen data) (off + 4)) as [H|H]; [do 2 eexists; now apply walk_short|].
    destruct (Z.eq_dec (field 4 data off) 4294967295) as [Hm|Hm]; [do 2 eexists; now apply walk_marker|].
    assert (Hdec : {attr_fits data off} + {~ attr_fits data off}).
    { unfold attr_fits. destruct (Z_le_gt_dec (off + 16) (zlen data)), (Z_le_gt_dec 16 (attr_len_at data off)),
        (Z_le_gt_dec (off + attr_len_at data off) (zlen data)); try (right; lia). left; lia. }
    destruct Hdec as [Hf|Hf]; [|do 2 eexists; now apply walk_bad].
    pose proof Hf as (H1 & H2 & H3).
    destruct (IH (Z.to_nat (zlen data - (off + attr_len_at data off)))) with (off := off + attr_len_at data off) as (l & b & W); try lia.
    do 2 eexists. eapply walk_attr; eauto.
  Qed.

  Lemma walk_length off l b : attr_walk data off l b -> 0 <= off ->
    Forall (fun o => off <= o /\ attr_fits data o) l /\ (l = [] \/ 16 * zlen l <= zlen data - off).
  Proof.
    induction 1 as [off H|off H Hm|off H Hm Hf|off l b Hm Hf W IH]; intros Ho; auto.
    pose proof Hf as (H1 & H2 & H3). destruct IH as (I1 & I2); [lia|]. split.
    - constructor; [split; auto; lia|]. eapply Forall_impl; [|exact I1]. cbn. intros a [? ?]. split; auto; lia.
    - right. rewrite zlen_cons. destruct I2 as [->|I2]; [change (zlen (@nil Z)) with 0; lia|lia].
  Qed.

  Lemma walk_iterate off l b : attr_walk data off l b -> 0 <= off ->
    exists e, forall n, iterate (raw_next f) (length l + n) off =
      map (fun o => Some (Ok (mkAttr f o None))) l ++ repeat (if b then None else Some (Err e)) n.
  Proof.
    assert (Hfix : forall off x, raw_next f off = (off, x) -> forall n, iterate (raw_next f) n off = repeat x n).
    { intros o x E n. induction n; cbn [iterate repeat]; auto. rewrite E. f_equal. auto. }
    induction 1 as [off H|off H Hm|off H Hm Hf|off l b Hm Hf W IH]; intros Ho; destruct (raw_next_spec off Ho) as (S1 & S2 & S3 & S4).
    - exists EInvalidMftLcn. intros n. apply Hfix. auto.
    - exists EInvalidMftLcn. intros n. apply Hfix. auto.
    - destruct (S3 H Hm Hf) as (x & E). exists x. intros n. apply Hfix. auto.
    - pose proof Hf as (H1 & H2 & H3). destruct IH as (e & IH); [lia|]. exists e. intros n.
      cbn [length Nat.add iterate]. rewrite (S4 Hm Hf). cbn [map app]. f_equal. apply IH.
  Qed.

  (** The accessors of an attribute that the iterator has returned. *)
  Lemma attr_ty_spec off e : 0 <= off -> attr_fits data off ->
    (type_known (attr_type_at data off) -> attr_ty (mkAttr f off e) = Ok (attr_type_at data off)) /\
    (~ type_known (attr_type_at data off) ->
       attr_ty (mkAttr f off e) = Err (EUnsupportedAttributeType (pos_add (f_position f) off) (attr_type_at data off))).
  Proof.
    intros Ho (H1 & H2 & H3). unfold attr_ty. rewrite attr_rd_in by lia. cbn [rbind]. rewrite Z.add_0_r.
    unfold attr_type_at. destruct (known_type (field 4 data off)) eqn:E; split; intros H; auto.
    - apply known_type_spec in E. tauto.
    - apply known_type_spec in H. congruence.
  Qed.

  Lemma attr_name_spec off e : 0 <= off -> attr_fits data off ->
    (exists bs, attr_name (mkAttr f off e) = Ok bs /\ attr_name_at data off bs) \/
    (exists x, attr_name (mkAttr f off e) = Err x /\ forall bs, ~ attr_name_at data off bs).
  Proof.
    intros Ho (H1 & H2 & H3). unfold attr_name, attr_validate_name, attr_name_offset, attr_name_length, attr_length, attr_name_at.
    rewrite !attr_rd_in by lia. cbn [rbind]. unfold attr_len_at in *.
    pose proof (field2_bound data (off + 10) Hb). pose proof (field1_bound data (off + 9) Hb).
    set (no := field 2 data (off + 10)) in *. set (nl := field 1 data (off + 9)) in *. set (len := field 4 data (off + 4)) in *.
    destruct ((no =? 0) || (nl * 2 =? 0)) eqn:E.
    - left. exists []. split; auto. left. split; auto. lia.
    - cbn [rbind].
      destruct (len <=? no) eqn:E1.
      + right. cbn [rbind]. eexists; split; [reflexivity|]. intros bs [(K & _)|(K1 & K2 & K3 & _)]; lia.
      + destruct (len <? no + nl * 2) eqn:E2.
        * right. cbn [rbind]. eexists; split; [reflexivity|]. intros bs [(K & _)|(K1 & K2 & K3 & _)]; lia.
        * left. cbn [rbind at_file at_offset]. unfold idx_range. rewrite get_range_in by lia. eexists; split; [reflexivity|].
          right. repeat split; try lia. f_equal. lia.
  Qed.

  Lemma attr_resident_value_spec off e : 0 <= off -> attr_fits data off -> off + 22 <= zlen data ->
    (exists bs, attr_resident_value (mkAttr f off e) = Ok (res_new bs (pos_add (f_position f) off)) /\ attr_value_at data off bs) \/
    (exists x, attr_resident_value (mkAttr f off e) = Err x /\ forall bs, ~ attr_value_at data off bs).
  Proof.
    intros Ho (H1 & H2 & H3) H4. unfold attr_resident_value, attr_validate_resident, attr_resident_value_offset, attr_resident_value_length, attr_length, attr_value_at.
    rewrite !attr_rd_in by lia. cbn [rbind]. unfold attr_len_at in *.
    pose proof (field2_bound data (off + 20) Hb). pose proof (field4_bound data (off + 16) Hb). pose proof (field4_bound data (off + 4) Hb).
    set (vo := field 2 data (off + 20)) in *. set (vl := field 4 data (off + 16)) in *. set (len := field 4 data (off + 4)) in *.
    destruct (len <? vo) eqn:E1; [right; cbn [rbind]; eexists; split; [reflexivity|]; intros bs (K & _); lia|].
    cbn [rbind].
    destruct (U32_MAX <? vo + vl) eqn:E2; [right; cbn [rbind]; eexists; split; [reflexivity|]; intros bs (K & _); lia|].
    destruct (len <? vo + vl) eqn:E3; [right; cbn [rbind]; eexists; split; [reflexivity|]; intros bs (K & _); lia|].
    left. cbn [rbind]. cbn [rbind at_file at_offset]. unfold idx_range. fold vo vl. rewrite get_range_in by lia.
    eexists; split; [reflexivity|]. split; [lia|]. f_equal.
  Qed.

  Lemma units_utf16 bs : forall us, Nat.Even (length bs) -> (utf16 bs us <-> units bs = us).
  Proof.
    induction bs as [bs IH] using (well_founded_induction (well_founded_ltof _ (@length Z))). intros us He.
    destruct bs as [|lo [|hi bs]].
    - cbn. split; [now inversion 1|intros <-; constructor].
    - destruct He as (k & He). cbn in He. lia.
    - assert (He' : Nat.Even (length bs)) by (destruct He as (k & He); cbn in He; exists (k - 1)%nat; lia).
      cbn [units]. split.
      + inversion 1; subst. f_equal. apply IH; auto. unfold ltof; cbn; lia.
      + intros <-. constructor. apply IH; auto. unfold ltof; cbn; lia.
  Qed.

  Lemma attr_name_even off bs : 0 <= off -> attr_fits data off -> attr_name_at data off bs -> Nat.Even (length bs).
  Proof.
    intros Ho (H1 & H2 & H3) [(_ & ->)|(K1 & K2 & K3 & ->)]; [exists 0%nat; reflexivity|].
    pose proof (field2_bound data (off + 10) Hb). pose proof (field1_bound data (off + 9) Hb).
    exists (Z.to_nat (field 1 data (off + 9))). pose proof (slice_len data (off + field 2 data (off + 10)) (off + field 2 data (off + 10) + 2 * field 1 data (off + 9))) as Hl.
    unfold zlen in Hl. unfold zlen in *. lia.
  Qed.

  Lemma attr_matches_spec off ty name inst : 0 <= off -> attr_fits data off ->
    match attr_matches (mkAttr f off None) ty name inst with
    | Ok true => type_known ty /\ is_match data ty name inst off
    | Ok false => is_other data ty name inst off
    | Err _ => is_malformed data ty name inst off
    | _ => False
    end.
  Proof.
    intros Ho Hf. unfold attr_matches, is_match, is_other, is_malformed.
    assert (Hdec : {type_known (attr_type_at data off)} + {~ type_known (attr_type_at data off)}) by (apply in_dec, Z.eq_dec).
    destruct (attr_ty_spec off None Ho Hf) as (T1 & T2). destruct Hdec as [Hk|Hk]; [rewrite (T1 Hk)|rewrite (T2 Hk)]; cbn [rbind]; auto.
    destruct (attr_type_at data off =? ty) eqn:Et; cbn [negb]; [|split; auto; left; lia].
    assert (Hty : attr_type_at data off = ty) by lia. rewrite Hty in Hk.
    assert (Hi : (match inst with Some i => let? x := attr_instance (mkAttr f off None) in Ok (x =? i) | None => Ok true end) =
                 Ok (match inst with Some i => attr_instance_at data off =? i | None => true end)).
    { destruct inst; auto. unfold attr_instance. destruct Hf. rewrite attr_rd_in by lia. reflexivity. }
    rewrite Hi. cbn [rbind]. clear Hi.
    destruct inst as [i|].
    - destruct (attr_instance_at data off =? i) eqn:Ei; cbn [negb].
      + destruct name as [nm|].
        * destruct (attr_name_spec off None Ho Hf) as [(bs & -> & Hbs)|(x & -> & Hx)]; cbn [rbind];
            [|right; split; [auto|split; [intros ? [= <-]; lia|split; [discriminate|auto]]]].
          unfold name_eq. destruct (list_eqb (units bs) nm) eqn:En.
          -- split; auto. split; auto. split; [intros; injection H as <-; lia|]. intros n Hn. injection Hn as <-. exists bs. split; auto.
             apply units_utf16; [eapply attr_name_even; eauto|]. now apply list_eqb_eq.
          -- split; [congruence|]. right; right. exists nm, bs. split; auto. split; auto. rewrite units_utf16 by (eapply attr_name_even; eauto).
             intros E. apply list_eqb_eq in E. congruence.
        * split; auto. split; auto. split; [intros; injection H as <-; lia|discriminate].
      + split; [congruence|]. right; left. exists i. split; auto. lia.
    - cbn [negb]. destruct name as [nm|].
      + destruct (attr_name_spec off None Ho Hf) as [(bs & -> & Hbs)|(x & -> & Hx)]; cbn [rbind];
          [|right; split; [auto|split; [discriminate|split; [discriminate|auto]]]].
        unfold name_eq. destruct (list_eqb (units bs) nm) eqn:En.
        * split; auto. split; auto. split; [discriminate|]. intros n Hn. injection Hn as <-. exists bs. split; auto.
          apply units_utf16; [eapply attr_name_even; eauto|]. now apply list_eqb_eq.
        * split; [congruence|]. right; right. exists nm, bs. split; auto. split; auto. rewrite units_utf16 by (eapply attr_name_even; eauto).
          intros E. apply list_eqb_eq in E. congruence.
      + split; auto. split; auto. split; discriminate.
  Qed.

  Lemma find_loop_spec off l b ty name inst : attr_walk data off l b -> 0 <= off -> forall fuel, (length l < fuel)%nat ->
    match find_resident_loop fuel f ty name inst off with
    | Ok a => exists l1 o l2, l = l1 ++ o :: l2 /\ a = mkAttr f o None /\ is_match data ty name inst o /\ Forall (is_other data ty name inst) l1
    | Err e => (e = EAttributeNotFound (f_position f) ty /\ b = true /\ Forall (is_other data ty name inst) l) \/
               (b = false /\ Forall (is_other data ty name inst) l) \/
               (exists l1 o l2, l = l1 ++ o :: l2 /\ Forall (is_other data ty name inst) l1 /\ is_malformed data ty name inst o)
    | _ => False
    end.
  Proof.
    induction 1 as [off H|off H Hm|off H Hm Hf|off l b Hm Hf W IH]; intros Ho fuel Hfu; (destruct fuel as [|fuel]; [cbn in Hfu; lia|]);
      cbn [find_resident_loop]; destruct (raw_next_spec off Ho) as (S1 & S2 & S3 & S4).
    - rewrite (S1 H). left; auto.
    - rewrite (S2 H Hm). left; auto.
    - destruct (S3 H Hm Hf) as (x & ->). cbn [rbind]. right; left; auto.
    - rewrite (S4 Hm Hf). cbn [rbind]. pose proof (attr_matches_spec off ty name inst Ho Hf) as Hmt.
      destruct (attr_matches _ ty name inst) as [[|]|x| |]; cbn [rbind]; auto.
      + exists [], off, l. repeat split; auto; apply Hmt.
      + pose proof Hf as (F1 & F2 & F3). cbn [length] in Hfu. specialize (IH ltac:(lia) fuel ltac:(lia)).
        destruct (find_resident_loop fuel f ty name inst _) as [a|x| |]; auto.
        * destruct IH as (l1 & o & l2 & -> & -> & Hmm & Hoo). exists (off :: l1), o, l2. repeat split; auto; apply Hmm.
        * destruct IH as [(-> & -> & Hall)|[(-> & Hall)|(l1 & o & l2 & -> & Hoo & Hbad)]]; auto.
          right; right. exists (off :: l1), o, l2. auto.
      + right; right. exists [], off, l. auto.
  Qed.
End Attr.
