(** * C08: what is read from extents at LCN 0, and from all others. *)
From Verif Require Import Base Dev Types DataRuns Stream NonResident Spec BaseProofs DataRunsProofs StreamProofs ReaderProofs NonResidentProofs.

Lemma encodes_yields_all cs p : 1 <= cs -> forall prev l enc, encodes prev l enc -> forall pre,
  0 <= prev <= U64_MAX -> Forall (extent_fits cs) l ->
  yields cs (pre ++ enc) p (mkDruns (zlen pre) prev) (map (run_of cs) (zero_as_hole prev l)).
Proof.
  intros Hcs. induction 1 as [prev tail|prev|prev lcn count cb ob l bs Hcb Hob He IH|prev count cb l bs Hcb He IH];
    intros pre Hprev Hf; cbn [zero_as_hole map].
  - eapply Y_nil.
    + unfold druns_next. cbn [dr_off dr_prev]. rewrite zdrop_len_app. cbn [Z.eqb]. reflexivity.
    + unfold druns_next. cbn [dr_off dr_prev]. now rewrite zdrop_all by lia.
  - apply (Y_nil _ _ _ _ (mkDruns (zlen pre) prev)); unfold druns_next; cbn [dr_off dr_prev]; rewrite zdrop_len_app; reflexivity.
  - inversion Hf as [|? ? (Hf1 & Hf2 & Hf3) Hft]; subst.
    cbn [e_lcn e_count] in *. destruct Hcb as (Hcb1 & Hcb2 & Hcb3). destruct Hob as (Hob1 & Hob2 & Hob3 & Hob4).
    eapply Y_cons.
    + unfold druns_next. cbn [dr_off dr_prev]. rewrite zdrop_len_app.
      set (h := zlen ob * 16 + zlen cb). replace (h =? 0) with false by lia.
      destruct (nibbles h) as (-> & ->); [lia|].
      replace (h mod 16) with (zlen cb) by lia. replace (h / 16) with (zlen ob) by lia. cbv zeta.
      rewrite read_variable_length_ok by lia. rewrite Hcb3.
      replace (count =? 0) with false by lia. unfold checked_mul64. replace (count * cs <=? U64_MAX) with true by lia.
      rewrite read_variable_length_ok by lia. rewrite Hob4, sign_extend_ok by auto.
      replace (zlen (pre ++ h :: cb ++ ob ++ bs) - zlen bs) with (zlen (pre ++ h :: cb ++ ob)).
      2: { rewrite !zlen_app, !zlen_cons, !zlen_app. lia. }
      destruct (lcn =? prev) eqn:Ep.
      { apply Z.eqb_eq in Ep. replace (lcn - prev =? 0) with true by lia. rewrite orb_true_r. rewrite <- Ep. reflexivity. }
      replace (lcn - prev =? 0) with false by lia. rewrite orb_false_r.
      assert (Hadd : lcn_checked_add prev (lcn - prev) = Some lcn).
      { assert (lcn <= lcn * cs) by nia.
        unfold lcn_checked_add. destruct (0 <=? lcn - prev) eqn:E.
        - apply checked_add64_some. lia.
        - rewrite Z.mod_small by (unfold TWO64, U64_MAX in *; lia). apply checked_sub64_some. lia. }
      rewrite Hadd. unfold lcn_position, checked_mul64. replace (lcn * cs <=? U64_MAX) with true by lia.
      unfold pos_new. replace (lcn * cs =? 0) with (lcn =? 0) by (destruct (lcn =? 0) eqn:E1; destruct (lcn * cs =? 0) eqn:E2; auto; nia).
      destruct (lcn =? 0); reflexivity.
    + replace (pre ++ zlen ob * 16 + zlen cb :: cb ++ ob ++ bs) with ((pre ++ zlen ob * 16 + zlen cb :: cb ++ ob) ++ bs).
      2: { rewrite <- app_assoc. cbn. now rewrite <- app_assoc. }
      apply IH; auto. nia.
  - inversion Hf as [|? ? (Hf1 & Hf2 & Hf3) Hft]; subst.
    cbn [e_lcn e_count] in *. destruct Hcb as (Hcb1 & Hcb2 & Hcb3).
    eapply Y_cons.
    + unfold druns_next. cbn [dr_off dr_prev]. rewrite zdrop_len_app.
      replace (zlen cb =? 0) with false by lia.
      destruct (nibbles (zlen cb)) as (-> & ->); [lia|].
      replace (zlen cb mod 16) with (zlen cb) by lia. replace (zlen cb / 16) with 0 by lia. cbv zeta.
      rewrite read_variable_length_ok by lia. rewrite Hcb3.
      replace (count =? 0) with false by lia. unfold checked_mul64. replace (count * cs <=? U64_MAX) with true by lia.
      rewrite read_variable_length_0. change (sign_extend 0 0) with 0. cbn [Z.eqb].
      replace (zlen (pre ++ zlen cb :: cb ++ bs) - zlen bs) with (zlen (pre ++ zlen cb :: cb)).
      2: { rewrite !zlen_app, !zlen_cons, !zlen_app. lia. }
      reflexivity.
    + replace (pre ++ zlen cb :: cb ++ bs) with ((pre ++ zlen cb :: cb) ++ bs) by (now rewrite <- app_assoc).
      apply IH; auto.
Qed.


Lemma cluster_zero_history cs img l enc p size ops d :
  1 <= cs -> zlen img <= TWO64 -> Forall (extent_fits cs) l -> Forall (extent_on_device cs img) l ->
  encodes 0 l enc -> 0 <= size <= U64_MAX -> faultless d -> d_img d = img -> Forall op_ok ops ->
  exists v, nr_new cs enc p size = Ok v /\
    reader_run nr_read nr_seek v d ops = cursor_run (file_content cs img (zero_as_hole 0 l) size) size 0 ops.
Proof.
  intros Hcs Himg Hf Hd He Hsize Hfl Hi Ho.
  assert (Hy : yields cs enc p druns_start (map (run_of cs) (zero_as_hole 0 l))).
  { apply (encodes_yields_all cs p Hcs 0 l enc He []); auto. unfold U64_MAX; lia. }
  assert (Hr : Forall (run_ok img) (map (run_of cs) (zero_as_hole 0 l))).
  { clear -Hcs Himg Hf Hd. generalize 0 at 1. induction l as [|[[lcn|] c] t IH]; intros prev; cbn [zero_as_hole map]; [constructor| |];
      inversion Hf as [|? ? (F1 & F2 & F3) Hf']; inversion Hd as [|? ? (D1 & D2) Hd']; subst; cbn [e_count e_lcn] in *;
      (constructor; [|apply IH; auto]); unfold run_ok, run_of; cbn [r_sp r_alloc r_pos e_lcn e_count]; (split; [reflexivity|]); (split; [nia|]); auto.
    destruct ((lcn =? 0) || (lcn =? prev)); auto. split; [nia|lia]. }
  destruct (nr_new_ok cs enc p size img _ Hy Hr) as (v & E & I1 & P0 & _).
  exists v. split; auto. rewrite <- content_of.
  pose proof (nr_refines cs enc p size img _ Hy Himg Hsize Hr) as R.
  set (m := zero_as_hole 0 l) in *. clearbody m. rewrite <- P0. eapply refines_history; [exact R|eexists; exact I1|split; auto|auto].
Qed.
