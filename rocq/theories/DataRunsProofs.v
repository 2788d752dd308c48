(** * Proofs about data run decoding. *)
From Verif Require Import Base Dev Types DataRuns Spec BaseProofs.

Lemma nibbles h : 0 <= h <= 255 -> Z.land h 15 = h mod 16 /\ Z.shiftr (Z.land h 240) 4 = h / 16.
Proof.
  intros. split.
  - change 15 with (Z.ones 4). rewrite Z.land_ones by lia. reflexivity.
  - rewrite Z.shiftr_land. change (Z.shiftr 240 4) with (Z.ones 4). rewrite Z.land_ones by lia.
    rewrite Z.shiftr_div_pow2 by lia. change (2 ^ 4) with 16. apply Z.mod_small. lia.
Qed.

Lemma sign_extend_ok k v : 1 <= k <= 8 -> - (256 ^ k / 2) <= v < 256 ^ k / 2 ->
  sign_extend (v mod 256 ^ k) k = v.
Proof.
  intros Hk Hv. unfold sign_extend, to_i64, I64_MAX, TWO64.
  assert (Hc : k = 1 \/ k = 2 \/ k = 3 \/ k = 4 \/ k = 5 \/ k = 6 \/ k = 7 \/ k = 8) by lia.
  destruct Hc as [-> | [-> | [-> | [-> | [-> | [-> | [-> | ->]]]]]]];
  match goal with |- context [(?a * 8) mod 64] => let x := eval vm_compute in ((a * 8) mod 64) in change ((a * 8) mod 64) with x end;
  repeat match goal with |- context [?b ^ ?e] => let x := eval vm_compute in (b ^ e) in change (b ^ e) with x end;
  repeat match goal with H : context [?b ^ ?e] |- _ => let x := eval vm_compute in (b ^ e) in change (b ^ e) with x in H end;
  repeat match goal with |- context [if ?b then _ else _] => destruct b eqn:? end; lia.
Qed.

(** The run that the code should report for an extent. *)
Definition run_of (cs : Z) (e : extent) : run :=
  mkRun (match e_lcn e with Some lcn => Some (lcn * cs) | None => None end) (e_count e * cs) 0.

(** [yields s l]: the iterator in state [s] delivers exactly [l], and then nothing. *)
Inductive yields (cs : Z) (data : list Z) (p : position) : druns -> list run -> Prop :=
| Y_nil s s' : druns_next cs data p s = (s', None) -> druns_next cs data p s' = (s', None) -> yields cs data p s []
| Y_cons s s' r l : druns_next cs data p s = (s', Some (Ok r)) -> yields cs data p s' l -> yields cs data p s (r :: l).

Lemma zdrop_len_app {A} (a b : list A) : zdrop (zlen a) (a ++ b) = b.
Proof. rewrite zdrop_app, zdrop_all, Z.sub_diag, zdrop_0 by lia. reflexivity. Qed.
Lemma ztake_len_app {A} (a b : list A) : ztake (zlen a) (a ++ b) = a.
Proof. rewrite ztake_app, ztake_all, Z.sub_diag, ztake_0, app_nil_r by lia. reflexivity. Qed.

Lemma read_variable_length_ok here bs rest : zlen bs <= 8 ->
  read_variable_length here (bs ++ rest) (zlen bs) = Ok (le_val bs, rest).
Proof.
  intros. unfold read_variable_length. replace (8 <? zlen bs) with false by lia.
  rewrite zlen_app. pose proof (zlen_nonneg rest). replace (zlen bs + zlen rest <? zlen bs) with false by lia.
  now rewrite ztake_len_app, zdrop_len_app.
Qed.

Lemma read_variable_length_0 here rest : read_variable_length here rest 0 = Ok (0, rest).
Proof. exact (read_variable_length_ok here [] rest eq_refl) || apply (read_variable_length_ok here [] rest). rewrite zlen_nil; lia. Qed.

Lemma encodes_yields cs p : 1 <= cs -> forall prev l enc, encodes prev l enc -> forall pre,
  0 <= prev <= U64_MAX -> lcns_distinct prev l -> Forall (extent_fits cs) l ->
  yields cs (pre ++ enc) p (mkDruns (zlen pre) prev) (map (run_of cs) l).
Proof.
  intros Hcs. induction 1 as [prev tail|prev|prev lcn count cb ob l bs Hcb Hob He IH|prev count cb l bs Hcb He IH];
    intros pre Hprev Hd Hf; cbn [map].
  - eapply Y_nil.
    + unfold druns_next. cbn [dr_off dr_prev]. rewrite zdrop_len_app. cbn [Z.eqb]. reflexivity.
    + unfold druns_next. cbn [dr_off dr_prev]. now rewrite zdrop_all by lia.
  - apply (Y_nil _ _ _ _ (mkDruns (zlen pre) prev)); unfold druns_next; cbn [dr_off dr_prev]; rewrite zdrop_len_app; reflexivity.
  - cbn [lcns_distinct] in Hd. destruct Hd as (Hd1 & Hd2 & Hd3). inversion Hf as [|? ? (Hf1 & Hf2 & Hf3) Hft]; subst.
    cbn [e_lcn e_count] in *. destruct Hcb as (Hcb1 & Hcb2 & Hcb3). destruct Hob as (Hob1 & Hob2 & Hob3 & Hob4).
    eapply Y_cons.
    + unfold druns_next. cbn [dr_off dr_prev]. rewrite zdrop_len_app.
      set (h := zlen ob * 16 + zlen cb). replace (h =? 0) with false by lia.
      destruct (nibbles h) as (-> & ->); [lia|].
      replace (h mod 16) with (zlen cb) by lia. replace (h / 16) with (zlen ob) by lia. cbv zeta.
      rewrite read_variable_length_ok by lia. rewrite Hcb3.
      replace (count =? 0) with false by lia. unfold checked_mul64. replace (count * cs <=? U64_MAX) with true by lia.
      rewrite read_variable_length_ok by lia. rewrite Hob4, sign_extend_ok by auto.
      replace (lcn - prev =? 0) with false by lia.
      assert (Hadd : lcn_checked_add prev (lcn - prev) = Some lcn).
      { assert (lcn <= lcn * cs) by nia.
        unfold lcn_checked_add. destruct (0 <=? lcn - prev) eqn:E.
        - apply checked_add64_some. lia.
        - rewrite Z.mod_small by (unfold TWO64, U64_MAX in *; lia). apply checked_sub64_some. lia. }
      rewrite Hadd. unfold lcn_position, checked_mul64. replace (lcn * cs <=? U64_MAX) with true by lia.
      unfold pos_new. replace (lcn * cs =? 0) with false by nia.
      replace (zlen (pre ++ h :: cb ++ ob ++ bs) - zlen bs) with (zlen (pre ++ h :: cb ++ ob)).
      2: { rewrite !zlen_app, !zlen_cons, !zlen_app. lia. }
      reflexivity.
    + replace (pre ++ zlen ob * 16 + zlen cb :: cb ++ ob ++ bs) with ((pre ++ zlen ob * 16 + zlen cb :: cb ++ ob) ++ bs).
      2: { rewrite <- app_assoc. cbn. now rewrite <- app_assoc. }
      apply IH; auto. nia.
  - cbn [lcns_distinct] in Hd. inversion Hf as [|? ? (Hf1 & Hf2 & Hf3) Hft]; subst.
    cbn [e_lcn e_count] in *. destruct Hcb as (Hcb1 & Hcb2 & Hcb3).
    eapply Y_cons.
    + unfold druns_next. cbn [dr_off dr_prev]. rewrite zdrop_len_app.
      replace (zlen cb =? 0) with false by lia.
      destruct (nibbles (zlen cb)) as (-> & ->); [lia|].
      replace (zlen cb mod 16) with (zlen cb) by lia. replace (zlen cb / 16) with 0 by lia. cbv zeta.
      rewrite read_variable_length_ok by lia. rewrite Hcb3.
      replace (count =? 0) with false by lia. unfold checked_mul64. replace (count * cs <=? U64_MAX) with true by lia.
      rewrite read_variable_length_0. change (sign_extend 0 0) with 0. cbn [Z.eqb].
      replace (zlen (pre ++ zlen cb :: cb ++ bs) - zlen bs) with (zlen (pre ++ zlen cb :: cb)).
      2: { rewrite !zlen_app, !zlen_cons, !zlen_app. lia. }
      reflexivity.
    + replace (pre ++ zlen cb :: cb ++ bs) with ((pre ++ zlen cb :: cb) ++ bs) by (now rewrite <- app_assoc).
      apply IH; auto.
Qed.

Lemma yields_iterate cs data p : forall s l, yields cs data p s l -> forall n,
  iterate (druns_next cs data p) (length l + n) s = map (fun r => Some (Ok r)) l ++ repeat None n.
Proof.
  induction 1; intros; cbn [length map app Nat.add].
  - destruct n; cbn; auto. rewrite H. f_equal. clear H. revert s' H0. induction n; intros; cbn; auto. rewrite H0. f_equal. auto.
  - cbn [iterate]. rewrite H. f_equal. auto.
Qed.

(** ** Arbitrary bytes *)
(** All that one call can do. *)
Inductive step_spec (cs : Z) (data : list Z) (s : druns) : druns -> item run -> Prop :=
| St_end s' : dr_off s <= dr_off s' -> zdrop (dr_off s') data = [] -> step_spec cs data s s' None
| St_run s' pos count : dr_off s < dr_off s' <= zlen data -> 1 <= count -> count * cs <= U64_MAX ->
    (pos = None \/ exists lcn, pos = Some (lcn * cs) /\ 1 <= lcn /\ lcn * cs <= U64_MAX) ->
    step_spec cs data s s' (Some (Ok (mkRun pos (count * cs) 0)))
| St_err s' e : dr_off s' = dr_off s -> dr_prev s' = dr_prev s \/ (exists lcn, e = ELcnTooBig lcn) ->
    step_spec cs data s s' (Some (Err e)).

Lemma read_variable_length_cases here rest k :
  (exists e, read_variable_length here rest k = Err e) \/
  (k <= 8 /\ k <= zlen rest /\ read_variable_length here rest k = Ok (le_val (ztake k rest), zdrop k rest)).
Proof.
  unfold read_variable_length. destruct (8 <? k) eqn:E1; [left; eauto|]. destruct (zlen rest <? k) eqn:E2; [left; eauto|].
  right. repeat split; auto; lia.
Qed.

Lemma lcn_checked_add_bounds a v b : 0 <= a <= U64_MAX -> I64_MIN <= v -> lcn_checked_add a v = Some b -> 0 <= b <= U64_MAX /\ b = a + v.
Proof.
  intros Ha Hv. unfold lcn_checked_add. destruct (0 <=? v) eqn:E; intros H.
  - apply checked_add64_some in H. lia.
  - rewrite Z.mod_small in H by (unfold TWO64, I64_MIN in *; lia). apply checked_sub64_some in H. lia.
Qed.

Lemma sign_extend_min v k : 0 <= v < TWO64 -> I64_MIN <= sign_extend v k.
Proof.
  intros Hv. unfold sign_extend. set (sh := ((8 - k) * 8) mod 64).
  assert (0 <= sh) by (subst sh; lia).
  assert (1 <= 2 ^ sh) by (change 1 with (2 ^ 0); apply Z.pow_le_mono_r; lia).
  assert (I64_MIN <= to_i64 ((to_i64 v * 2 ^ sh) mod TWO64)).
  { unfold to_i64 at 1. destruct (_ <=? _) eqn:E; unfold I64_MIN, I64_MAX, TWO64 in *; lia. }
  apply Z.div_le_lower_bound; [lia|]. unfold I64_MIN in *. nia.
Qed.

Lemma druns_next_spec cs data p s s' x : 1 <= cs -> bytes_ok data -> 0 <= dr_off s -> 0 <= dr_prev s <= U64_MAX ->
  druns_next cs data p s = (s', x) -> step_spec cs data s s' x /\ 0 <= dr_prev s' <= U64_MAX.
Proof.
  intros Hcs Hb Ho Hp H. unfold druns_next in H. cbv zeta in H.
  destruct (zdrop (dr_off s) data) as [|h rest] eqn:Eh.
  { injection H as <- <-. split; auto. apply St_end; [lia|auto]. }
  assert (Hlen : zlen rest + 1 = zlen data - dr_off s).
  { pose proof (zlen_zdrop (dr_off s) data) as Hz. rewrite Eh, zlen_cons in Hz. pose proof (zlen_nonneg rest). lia. }
  assert (Hb2 : bytes_ok (h :: rest)) by (rewrite <- Eh; now apply bytes_ok_zdrop).
  inversion Hb2 as [|? ? Hh Hbr]; subst.
  destruct (h =? 0) eqn:E0.
  { injection H as <- <-. split; auto. apply St_end; cbn [dr_off]; [pose proof (zlen_nonneg rest); lia|apply zdrop_all; lia]. }
  destruct (nibbles h) as (En1 & En2); [exact Hh|]. rewrite En1, En2 in H.
  destruct (read_variable_length_cases (druns_position p s) rest (h mod 16)) as [(e & E1)|(K1 & K2 & E1)]; rewrite E1 in H.
  { injection H as <- <-. split; auto. apply St_err; auto. }
  set (count := le_val _) in H.
  assert (Hcount : 0 <= count) by (apply le_val_nonneg; now apply bytes_ok_ztake).
  destruct (count =? 0) eqn:E2.
  { injection H as <- <-. split; auto. apply St_err; auto. }
  destruct (checked_mul64 count cs) as [al|] eqn:E3.
  2: { injection H as <- <-. split; auto. apply St_err; auto. }
  apply checked_mul64_some in E3 as (-> & E3).
  destruct (read_variable_length_cases (druns_position p s) (zdrop (h mod 16) rest) (h / 16)) as [(e & E4)|(K3 & K4 & E4)]; rewrite E4 in H.
  { injection H as <- <-. split; auto. apply St_err; auto. }
  set (rest2 := zdrop (h / 16) (zdrop (h mod 16) rest)) in H.
  assert (Hr2 : 0 <= zlen rest2 <= zlen rest). { subst rest2. rewrite !zlen_zdrop. pose proof (zlen_nonneg rest). lia. }
  destruct (sign_extend _ _ =? 0) eqn:E5.
  { injection H as <- <-. split; auto. unfold run_new. apply St_run; cbn [dr_off]; auto; lia. }
  set (raw := le_val (ztake (h / 16) (zdrop (h mod 16) rest))) in *.
  assert (Hraw : 0 <= raw < TWO64).
  { subst raw. split; [apply le_val_nonneg; now apply bytes_ok_ztake, bytes_ok_zdrop|].
    eapply Z.lt_le_trans; [apply le_val_bound; now apply bytes_ok_ztake, bytes_ok_zdrop|].
    change TWO64 with (256 ^ 8). apply Z.pow_le_mono_r; [lia|]. rewrite zlen_ztake. lia. }
  pose proof (sign_extend_min raw (h / 16) Hraw) as Hmin.
  destruct (lcn_checked_add (dr_prev s) _) as [lcn|] eqn:E6.
  2: { injection H as <- <-. split; auto. apply St_err; auto. }
  apply lcn_checked_add_bounds in E6 as (Hl & _); auto.
  unfold lcn_position in H. destruct (checked_mul64 lcn cs) as [lp|] eqn:E7.
  - injection H as <- <-. apply checked_mul64_some in E7 as (-> & E7). cbn [dr_prev]. split; auto. unfold run_new, pos_new.
    apply St_run; cbn [dr_off]; auto; try lia.
    destruct (lcn * cs =? 0) eqn:E8; [auto|]. right. exists lcn. repeat split; auto. nia.
  - injection H as <- <-. split; auto. apply St_err; cbn; eauto.
Qed.

Lemma druns_next_progress cs data p s s' r : 
  druns_next cs data p s = (s', Some (Ok r)) -> 0 <= dr_off s -> 0 <= dr_off s' /\ (length (zdrop (dr_off s') data) < length (zdrop (dr_off s) data))%nat.
Proof.
  intros H Ho. unfold druns_next in H. cbv zeta in H. destruct (zdrop (dr_off s) data) as [|h rest] eqn:Eh; [discriminate|].
  assert (Hlen : zlen rest + 1 = zlen data - dr_off s).
  { pose proof (zlen_zdrop (dr_off s) data) as Hz. rewrite Eh, zlen_cons in Hz. pose proof (zlen_nonneg rest). lia. }
  destruct (h =? 0); [discriminate|].
  destruct (read_variable_length_cases (druns_position p s) rest (Z.land h 15)) as [(e & E1)|(K1 & K2 & E1)]; rewrite E1 in H; [discriminate|].
  destruct (_ =? 0); [discriminate|]. destruct (checked_mul64 _ _); [|discriminate].
  destruct (read_variable_length_cases (druns_position p s) (zdrop (Z.land h 15) rest) (Z.shiftr (Z.land h 240) 4)) as [(e & E2)|(K3 & K4 & E2)]; rewrite E2 in H; [discriminate|].
  set (rest2 := zdrop _ (zdrop _ rest)) in H.
  assert (Hr2 : 0 <= zlen rest2 <= zlen rest). { subst rest2. rewrite !zlen_zdrop. pose proof (zlen_nonneg rest). lia. }
  assert (Hd : dr_off s' = zlen data - zlen rest2).
  { destruct (_ =? 0); [injection H as <- _; reflexivity|]. destruct (lcn_checked_add _ _); [|discriminate].
    destruct (lcn_position _ _); try discriminate. injection H as <- _; reflexivity. }
  split; [lia|]. cbn [length]. pose proof (zlen_zdrop (dr_off s') data). unfold zlen in *. lia.
Qed.

(** ** Persistence of errors *)
(** In state [s] every call fails, and stays in such a state. *)
Inductive fails_with (cs : Z) (data : list Z) (p : position) (s : druns) : Prop :=
| Fail_same e : druns_next cs data p s = (s, Some (Err e)) -> fails_with cs data p s
| Fail_lcn : (forall prev, dr_prev s <= prev <= U64_MAX -> exists s' e, druns_next cs data p (mkDruns (dr_off s) prev) = (s', Some (Err e)) /\
      dr_off s' = dr_off s /\ prev <= dr_prev s' <= U64_MAX) -> dr_prev s <= U64_MAX -> fails_with cs data p s.

Lemma fails_with_next cs data p s : fails_with cs data p s ->
  exists s' e, druns_next cs data p s = (s', Some (Err e)) /\ fails_with cs data p s'.
Proof.
  intros [e E|H Hm].
  - exists s, e. split; auto. eapply Fail_same; eauto.
  - destruct (H (dr_prev s)) as (s' & e & E & Ho & Hp); [lia|]. exists s', e. split.
    + destruct s; exact E.
    + apply Fail_lcn; [|lia]. rewrite Ho. intros prev Hprev. apply H. lia.
Qed.

Lemma fails_with_iterate cs data p n : forall s, fails_with cs data p s ->
  Forall (fun x => exists e, x = Some (Err e)) (iterate (druns_next cs data p) n s).
Proof.
  induction n; intros s H; cbn [iterate]; [constructor|]. destruct (fails_with_next _ _ _ _ H) as (s' & e & E & H'). rewrite E.
  constructor; eauto.
Qed.

Lemma druns_next_error cs data p s s' e : 1 <= cs -> bytes_ok data -> 0 <= dr_off s -> 0 <= dr_prev s -> dr_prev s * cs <= U64_MAX ->
  druns_next cs data p s = (s', Some (Err e)) -> fails_with cs data p s'.
Proof.
  intros Hcs Hb Ho Hp Hp2 H. pose proof H as H0. unfold druns_next in H. cbv zeta in H.
  assert (Hself : s' = s -> fails_with cs data p s') by (intros ->; eapply Fail_same; eauto).
  destruct (zdrop (dr_off s) data) as [|h rest] eqn:Eh; [discriminate|].
  destruct (h =? 0) eqn:Eh0; [discriminate|].
  destruct (read_variable_length_cases (druns_position p s) rest (Z.land h 15)) as [(e1 & E1)|(K1 & K2 & E1)]; rewrite E1 in H.
  { injection H as <- <-. auto. }
  destruct (le_val (ztake (Z.land h 15) rest) =? 0) eqn:E2. { injection H as <- <-. auto. }
  destruct (checked_mul64 (le_val (ztake (Z.land h 15) rest)) cs) as [al|] eqn:E3; [|injection H as <- <-; auto].
  destruct (read_variable_length_cases (druns_position p s) (zdrop (Z.land h 15) rest) (Z.shiftr (Z.land h 240) 4)) as [(e2 & E4)|(K3 & K4 & E4)]; rewrite E4 in H.
  { injection H as <- <-. auto. }
  match type of H with context [sign_extend ?a ?b] => set (v := sign_extend a b) in * end. destruct (v =? 0) eqn:E5; [discriminate|].
  destruct (lcn_checked_add (dr_prev s) v) as [lcn|] eqn:E6; [|injection H as <- <-; auto].
  unfold lcn_position in H. destruct (checked_mul64 lcn cs) as [lp|] eqn:E7; [discriminate|]. injection H as <- <-.
  unfold checked_mul64 in E7. destruct (lcn * cs <=? U64_MAX) eqn:E8; [discriminate|]. clear E7.
  assert (Hprev : dr_prev s <= U64_MAX) by nia.
  assert (Hv : 0 < v /\ lcn = dr_prev s + v /\ lcn <= U64_MAX).
  { unfold lcn_checked_add in E6. destruct (0 <=? v) eqn:E9.
    - apply checked_add64_some in E6. split; [|lia]. lia.
    - exfalso. apply checked_sub64_some in E6. assert (lcn <= dr_prev s). { unfold TWO64 in *. lia. } nia. }
  destruct Hv as (Hv & Hl & Hl2).
  apply Fail_lcn; cbn [dr_prev dr_off]; [|lia]. intros prev Hpr. unfold druns_next. cbv zeta. cbn [dr_off dr_prev]. rewrite Eh, Eh0.
  unfold druns_position. cbn [dr_off]. fold (druns_position p s). rewrite E1, E2, E3, E4. fold v. rewrite E5.
  unfold lcn_checked_add. replace (0 <=? v) with true by lia.
  destruct (checked_add64 prev v) as [l2|] eqn:Ea.
  - apply checked_add64_some in Ea as (-> & Ea). unfold lcn_position, checked_mul64. replace ((prev + v) * cs <=? U64_MAX) with false by nia.
    do 2 eexists; split; [reflexivity|]. cbn. lia.
  - do 2 eexists; split; [reflexivity|]. cbn. lia.
Qed.

Lemma none_iterate cs data p n : forall s, zdrop (dr_off s) data = [] -> Forall (eq None) (iterate (druns_next cs data p) n s).
Proof.
  induction n; intros s H; cbn [iterate]; [constructor|]. unfold druns_next at 1. rewrite H. constructor; auto.
Qed.

Lemma druns_next_prev cs data p s s' r : 0 <= dr_prev s -> 1 <= cs -> dr_prev s * cs <= U64_MAX -> bytes_ok data -> 0 <= dr_off s ->
  druns_next cs data p s = (s', Some (Ok r)) -> 0 <= dr_prev s' /\ dr_prev s' * cs <= U64_MAX /\ 0 <= dr_off s'.
Proof.
  intros Hp Hcs Hp2 Hb Ho H. destruct (druns_next_progress _ _ _ _ _ _ H Ho) as (Ho' & _).
  destruct (druns_next_spec cs data p s s' (Some (Ok r))) as (_ & Hpr); auto. { split; auto. nia. }
  split; [lia|]. split; auto. clear Hpr Ho'.
  unfold druns_next in H. cbv zeta in H. destruct (zdrop (dr_off s) data) as [|h rest] eqn:Eh; [discriminate|].
  destruct (h =? 0); [discriminate|].
  destruct (read_variable_length _ rest _) as [[c r1]| | |]; try discriminate.
  destruct (c =? 0); [discriminate|]. destruct (checked_mul64 c cs); [|discriminate].
  destruct (read_variable_length _ r1 _) as [[raw r2]| | |]; try discriminate.
  destruct (_ =? 0); [injection H as <- _; auto|]. destruct (lcn_checked_add _ _) as [lcn|]; [|discriminate].
  unfold lcn_position in H. destruct (checked_mul64 lcn cs) eqn:E; [|discriminate]. injection H as <- _. cbn [dr_prev].
  apply checked_mul64_some in E. lia.
Qed.

Lemma druns_iterate_shape cs data p : 1 <= cs -> bytes_ok data -> forall n s,
  0 <= dr_off s -> 0 <= dr_prev s -> dr_prev s * cs <= U64_MAX ->
  exists runs rest, iterate (druns_next cs data p) n s = map (fun r => Some (Ok r)) runs ++ rest /\
    (length runs <= length (zdrop (dr_off s) data))%nat /\
    (Forall (eq None) rest \/ Forall (fun x => exists e, x = Some (Err e)) rest).
Proof.
  intros Hcs Hb. induction n; intros s Ho Hp Hp2; cbn [iterate].
  { exists [], []. cbn. split; auto. split; [lia|]. auto. }
  destruct (druns_next cs data p s) as [s' x] eqn:E.
  destruct (druns_next_spec cs data p s s' x Hcs Hb Ho) as (Hs & _); auto. { nia. }
  inversion Hs; subst.
  - exists [], (None :: iterate (druns_next cs data p) n s'). cbn. split; auto. split; [lia|]. left. constructor; auto. now apply none_iterate.
  - pose proof (druns_next_prev _ _ _ _ _ _ Hp Hcs Hp2 Hb Ho E) as (P1 & P2 & P3).
    destruct (IHn s' P3 P1 P2) as (runs & rest & Ei & Hl & Hr). rewrite Ei.
    exists (mkRun pos (count * cs) 0 :: runs), rest. cbn. split; auto. split; auto.
    pose proof (druns_next_progress _ _ _ _ _ _ E Ho) as (_ & Hlt). lia.
  - exists [], (Some (Err e) :: iterate (druns_next cs data p) n s'). cbn. split; auto. split; [lia|]. right. constructor; eauto.
    apply fails_with_iterate. eapply druns_next_error; eauto.
Qed.

Lemma druns_iterate_runs cs data p : 1 <= cs -> bytes_ok data -> forall n s r,
  0 <= dr_off s -> 0 <= dr_prev s -> dr_prev s * cs <= U64_MAX -> In (Some (Ok r)) (iterate (druns_next cs data p) n s) ->
  r_sp r = 0 /\ (exists count, 1 <= count /\ r_alloc r = count * cs /\ r_alloc r <= U64_MAX) /\
  (r_pos r = None \/ exists lcn, 1 <= lcn /\ r_pos r = Some (lcn * cs) /\ lcn * cs <= U64_MAX).
Proof.
  intros Hcs Hb. induction n; intros s r Ho Hp Hp2; cbn [iterate]; [intros []|].
  destruct (druns_next cs data p s) as [s' x] eqn:E.
  destruct (druns_next_spec cs data p s s' x Hcs Hb Ho) as (Hs & _); auto. { nia. }
  inversion Hs; subst; intros [Hin|Hin]; try discriminate.
  - exfalso. assert (Hn := none_iterate cs data p n s' H0). rewrite Forall_forall in Hn. specialize (Hn _ Hin). discriminate.
  - injection Hin as <-. cbn. split; auto. split; [exists count; repeat split; auto|]. destruct H2 as [->|(lcn & -> & ? & ?)]; eauto 8.
  - pose proof (druns_next_prev _ _ _ _ _ _ Hp Hcs Hp2 Hb Ho E) as (P1 & P2 & P3). eauto.
  - exfalso. assert (Hn : fails_with cs data p s') by (eapply druns_next_error; eauto).
    apply (fails_with_iterate _ _ _ n) in Hn. rewrite Forall_forall in Hn. destruct (Hn _ Hin); discriminate.
Qed.

(** ** Cluster arithmetic (C39) *)
Lemma lcn_checked_add_spec a v : 0 <= a <= U64_MAX -> I64_MIN <= v <= I64_MAX ->
  lcn_checked_add a v = if (0 <=? a + v) && (a + v <=? U64_MAX) then Some (a + v) else None.
Proof.
  intros Ha Hv. unfold lcn_checked_add, checked_add64, checked_sub64. destruct (0 <=? v) eqn:E.
  - destruct (a + v <=? U64_MAX) eqn:E2; destruct (_ && _) eqn:E3; auto; lia.
  - rewrite Z.mod_small by (unfold TWO64, I64_MIN in *; lia). destruct (- v <=? a) eqn:E2; destruct (_ && _) eqn:E3; auto; try lia. f_equal; lia.
Qed.

Lemma lcn_position_spec cs lcn : 0 <= lcn <= U64_MAX -> 1 <= cs ->
  (lcn * cs <= U64_MAX -> lcn_position cs lcn = Ok (if lcn * cs =? 0 then None else Some (lcn * cs))) /\
  (U64_MAX < lcn * cs -> lcn_position cs lcn = Err (ELcnTooBig lcn)).
Proof.
  intros. unfold lcn_position, checked_mul64, pos_new. destruct (lcn * cs <=? U64_MAX) eqn:E; split; intros; auto; lia.
Qed.
Lemma vcn_offset_spec cs vcn :
  (I64_MIN <= vcn * cs <= I64_MAX -> vcn_offset cs vcn = Ok (vcn * cs)) /\
  (~ I64_MIN <= vcn * cs <= I64_MAX -> vcn_offset cs vcn = Err (EVcnTooBig vcn)).
Proof. unfold vcn_offset. destruct (_ && _) eqn:E; split; intros; auto; lia. Qed.
Lemma pos_add_spec v n : 0 < v <= U64_MAX -> 0 <= n <= U64_MAX ->
  (v + n <= U64_MAX -> pos_add (Some v) n = Some (v + n)) /\ pos_add None n = None.
Proof.
  intros. split; auto. intros. cbn. rewrite Z.mod_small by (unfold TWO64, U64_MAX in *; lia). unfold pos_new.
  replace (_ =? 0) with false by lia. reflexivity.
Qed.

Lemma decode_extents cs p l enc n : 1 <= cs -> encodes 0 l enc -> lcns_distinct 0 l -> Forall (extent_fits cs) l ->
  iterate (druns_next cs enc p) (length l + n) druns_start = map (fun e => Some (Ok (run_of cs e))) l ++ repeat None n.
Proof.
  intros Hcs He Hd Hf.
  assert (Hy : yields cs ([] ++ enc) p (mkDruns (zlen (@nil Z)) 0) (map (run_of cs) l)) by (apply encodes_yields; auto; unfold U64_MAX; lia).
  pose proof (yields_iterate _ _ _ _ _ Hy n) as H. rewrite map_length, map_map in H. exact H.
Qed.

Lemma druns_iterate_ends cs data p n : 1 <= cs -> bytes_ok data ->
  exists runs rest, iterate (druns_next cs data p) n druns_start = map (fun r => Some (Ok r)) runs ++ rest /\
    (length runs <= length data)%nat /\
    (Forall (fun x => x = None) rest \/ Forall (fun x => exists e, x = Some (Err e)) rest).
Proof.
  intros Hcs Hb. destruct (druns_iterate_shape cs data p Hcs Hb n druns_start) as (runs & rest & E & Hl & Hr); try (cbn; unfold U64_MAX; lia).
  exists runs, rest. split; auto. cbn [druns_start dr_off] in Hl. rewrite zdrop_0 in Hl by lia. split; auto.
  destruct Hr as [Hr|Hr]; auto. left. eapply Forall_impl; [|exact Hr]. cbn. congruence.
Qed.

Lemma druns_iterate_aligned cs data p n r : 1 <= cs -> bytes_ok data ->
  In (Some (Ok r)) (iterate (druns_next cs data p) n druns_start) ->
  r_sp r = 0 /\ (exists count, 1 <= count /\ r_alloc r = count * cs /\ r_alloc r <= U64_MAX) /\
  (r_pos r = None \/ exists lcn, 1 <= lcn /\ r_pos r = Some (lcn * cs) /\ lcn * cs <= U64_MAX).
Proof. intros Hcs Hb. apply druns_iterate_runs; auto; cbn; unfold U64_MAX; lia. Qed.

Lemma druns_error_changes : exists cs data p e1 e2, 1 <= cs /\ bytes_ok data /\
  iterate (druns_next cs data p) 2 druns_start = [Some (Err e1); Some (Err e2)] /\ e1 <> e2.
Proof.
  exists 4096, [129; 1; 255; 255; 255; 255; 255; 255; 255; 127], None. do 2 eexists. split; [lia|]. split; [apply bytes_okb_ok; reflexivity|].
  split; [vm_compute; reflexivity|]. discriminate.
Qed.
