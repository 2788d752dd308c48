(** * Times, GUIDs, file references and name comparison. *)
From Verif Require Import Base Dev Types DataRuns Stream NonResident Resident Attribute Structured AttrList Time Guid Upcase Spec SpecMisc BaseProofs.

(** ** Times *)
Lemma datetime_of_time t : 0 <= t <= U64_MAX -> datetime_from_time t = Ok (instant_of t).
Proof.
  intros H. unfold datetime_from_time, nt_timestamp, instant_of, YEAR_1601, EPOCH_DIFFERENCE_IN_INTERVALS, DATETIME_MIN, DATETIME_MAX, U64_MAX in *.
  replace ((_ <=? _) && (_ <=? _)) with true by lia. f_equal. lia.
Qed.

Lemma quot_floor n : 0 <= n -> Z.quot n 100 = n / 100.
Proof. intros. apply Z.quot_div_nonneg; lia. Qed.
Lemma quot_neg n : n < 0 -> Z.quot n 100 = - ((- n) / 100).
Proof. intros. replace n with (- (- n)) at 1 by lia. rewrite Z.quot_opp_l by lia. rewrite quot_floor; lia. Qed.

Lemma time_of_datetime t : 0 <= t <= U64_MAX -> time_from_datetime (instant_of t) = Ok t.
Proof.
  intros H. unfold time_from_datetime, instant_of, YEAR_1601, EPOCH_DIFFERENCE_IN_INTERVALS, U64_MAX in *.
  replace (- 11644473600 * 1000000000 + 100 * t) with ((t - 116444736000000000) * 100) by lia.
  rewrite Z.quot_mul by lia. replace ((_ <=? _) && (_ <=? _)) with true by lia. f_equal. lia.
Qed.

Lemma time_of_instant n : YEAR_1601 <= n ->
  (intervals_since_1601 n <= U64_MAX -> exists t, time_from_datetime n = Ok t /\ 0 <= t <= U64_MAX /\ Z.abs (n - instant_of t) < 100 /\
     (0 <= n -> t = intervals_since_1601 n)) /\
  (U64_MAX < intervals_since_1601 n -> time_from_datetime n = Err EInvalidTime).
Proof.
  unfold time_from_datetime, instant_of, intervals_since_1601, YEAR_1601, EPOCH_DIFFERENCE_IN_INTERVALS, U64_MAX. intros H.
  destruct (Z_lt_le_dec n 0) as [Hn|Hn].
  - rewrite quot_neg by lia. split; intros K; [|exfalso; revert K; Z.to_euclidean_division_equations; lia].
    destruct (_ && _) eqn:E.
    + eexists. split; [reflexivity|]. Z.to_euclidean_division_equations. lia.
    + exfalso. revert E. rewrite andb_false_iff, !Z.leb_gt. Z.to_euclidean_division_equations. lia.
  - rewrite quot_floor by lia. split; intros K.
    + replace (_ && _) with true.
      2:{ symmetry. rewrite andb_true_iff, !Z.leb_le. Z.to_euclidean_division_equations. lia. }
      eexists. split; [reflexivity|]. split; [Z.to_euclidean_division_equations; lia|]. split; [Z.to_euclidean_division_equations; lia|].
      intros _. Z.to_euclidean_division_equations. lia.
    + replace (_ && _) with false; auto.
      symmetry. rewrite andb_false_iff, !Z.leb_gt. right. Z.to_euclidean_division_equations. lia.
Qed.

Lemma time_monotone n m a b : n <= m -> time_from_datetime n = Ok a -> time_from_datetime m = Ok b -> a <= b.
Proof.
  unfold time_from_datetime. intros H. destruct (_ && _); [|discriminate]. destruct (_ && _); [|discriminate].
  intros [= <-] [= <-]. pose proof (Z.quot_le_mono n m 100). lia.
Qed.

Lemma time_early n : n <= YEAR_1601 - 100 -> time_from_datetime n = Err EInvalidTime.
Proof.
  unfold time_from_datetime, YEAR_1601, EPOCH_DIFFERENCE_IN_INTERVALS, U64_MAX. intros H. rewrite quot_neg by lia.
  replace (_ && _) with false; auto. symmetry. rewrite andb_false_iff, !Z.leb_gt. left. Z.to_euclidean_division_equations. lia.
Qed.

Lemma systemtime_spec n :
  time_from_systemtime n =
    if n <? 0 then Err EInvalidTime else if intervals_since_1601 n <=? U64_MAX then Ok (intervals_since_1601 n) else Panic.
Proof.
  unfold time_from_systemtime, intervals_since_1601, YEAR_1601, INTERVALS_PER_SECOND, EPOCH_DIFFERENCE_IN_INTERVALS, U64_MAX.
  destruct (n <? 0) eqn:E0; auto.
  assert (E : (n - - 11644473600 * 1000000000) / 100 = n / 1000000000 * 10000000 + n mod 1000000000 / 100 + 116444736000000000).
  { Z.to_euclidean_division_equations. lia. }
  rewrite E. pose proof (Z.mod_pos_bound n 1000000000). pose proof (Z.div_pos (n mod 1000000000) 100).
  destruct (18446744073709551615 <? n / 1000000000 * 10000000) eqn:E1.
  { replace (_ <=? _) with false by lia. auto. }
  destruct (18446744073709551615 <? n / 1000000000 * 10000000 + n mod 1000000000 / 100) eqn:E2.
  { replace (_ <=? _) with false by lia. auto. }
  destruct (18446744073709551615 <? n / 1000000000 * 10000000 + n mod 1000000000 / 100 + 116444736000000000) eqn:E3.
  { replace (_ <=? _) with false by lia. auto. }
  replace (_ <=? _) with true by lia. auto.
Qed.

(** ** GUIDs *)
Lemma hex_digit_char x : 0 <= x < 16 -> hex_digit x = hex_char x.
Proof.
  intros H. assert (K : x = 0 \/ x = 1 \/ x = 2 \/ x = 3 \/ x = 4 \/ x = 5 \/ x = 6 \/ x = 7 \/ x = 8 \/ x = 9 \/ x = 10 \/ x = 11 \/
    x = 12 \/ x = 13 \/ x = 14 \/ x = 15) by lia.
  repeat (destruct K as [->|K]; [reflexivity|]). subst. reflexivity.
Qed.

(** Value of a digit; a space counts as zero. *)
Definition unhex (c : Z) : Z := if c <? 48 then 0 else if c <? 65 then c - 48 else c - 55.
Lemma unhex_digit x : 0 <= x < 16 -> unhex (hex_digit x) = x.
Proof. intros. unfold unhex, hex_digit. destruct (x <? 10) eqn:E. - replace (48 + x <? 48) with false by lia. replace (48 + x <? 65) with true by lia. lia.
  - replace (55 + x <? 48) with false by lia. replace (55 + x <? 65) with false by lia. lia. Qed.
Definition unhex_rev (l : list Z) : Z := fold_right (fun c acc => unhex c + 16 * acc) 0 l.

Lemma hex_rev_val fuel : forall n, 0 <= n < 16 ^ Z.of_nat fuel -> unhex_rev (hex_rev fuel n) = n.
Proof.
  induction fuel as [|f IH]; intros n H; cbn [hex_rev unhex_rev fold_right].
  - cbn in H. lia.
  - rewrite Nat2Z.inj_succ, Z.pow_succ_r in H by lia. rewrite unhex_digit by (apply Z.mod_pos_bound; lia).
    fold (unhex_rev (if n / 16 =? 0 then [] else hex_rev f (n / 16))).
    destruct (n / 16 =? 0) eqn:E.
    + cbn. apply Z.eqb_eq in E. Z.to_euclidean_division_equations. lia.
    + rewrite IH; [|split; [apply Z.div_pos; lia|apply Z.div_lt_upper_bound; lia]]. pose proof (Z.div_mod n 16). lia.
Qed.

Lemma unhex_rev_spaces k : unhex_rev (repeat 32 k) = 0.
Proof. induction k; [reflexivity|]. unfold unhex_rev in *. cbn [repeat fold_right]. rewrite IHk. reflexivity. Qed.
Lemma unhex_rev_app a b : unhex_rev (a ++ b) = unhex_rev a + 16 ^ zlen a * unhex_rev b.
Proof.
  induction a as [|x a IH]; cbn [app].
  - change (zlen (@nil Z)) with 0. cbn [unhex_rev fold_right]. lia.
  - cbn [unhex_rev fold_right]. fold (unhex_rev (a ++ b)) (unhex_rev a). rewrite IH, zlen_cons, Z.pow_add_r by (pose proof (zlen_nonneg a); lia). lia.
Qed.

Lemma fmt_val w n : 0 <= n < 16 ^ 16 -> unhex_rev (rev (fmt_upper_hex w n)) = n.
Proof.
  intros H. unfold fmt_upper_hex. cbv zeta. rewrite rev_app_distr, rev_involutive, unhex_rev_app, hex_rev_val by exact H.
  unfold zrepeat. assert (E : forall k, rev (repeat 32 k) = repeat 32 k).
  { intros k. induction k; cbn; auto. rewrite IHk. change [32] with (repeat 32 1). rewrite <- repeat_app, Nat.add_comm. reflexivity. }
  rewrite E, unhex_rev_spaces. lia.
Qed.

Lemma hex_rev_length fuel : forall n k, 0 <= n < 16 ^ Z.of_nat k -> (1 <= k <= fuel)%nat -> (1 <= length (hex_rev fuel n) <= k)%nat.
Proof.
  induction fuel as [|f IH]; intros n k H Hk; [lia|]. cbn [hex_rev length]. destruct (n / 16 =? 0) eqn:E; cbn [length]; [lia|].
  destruct k as [|k]; [lia|]. rewrite Nat2Z.inj_succ, Z.pow_succ_r in H by lia.
  assert (Hb : 0 <= n / 16 < 16 ^ Z.of_nat k) by (split; [apply Z.div_pos; lia|apply Z.div_lt_upper_bound; lia]).
  destruct k as [|k]; [exfalso; cbn in Hb; apply Z.eqb_neq in E; lia|].
  specialize (IH (n / 16) (S k) Hb). lia.
Qed.

Lemma fmt_length w n : 0 <= n < 16 ^ Z.of_nat w -> (1 <= w <= 16)%nat -> length (fmt_upper_hex (Z.of_nat w) n) = w.
Proof.
  intros H Hw. unfold fmt_upper_hex. cbv zeta. rewrite app_length, rev_length. unfold zrepeat. rewrite repeat_length.
  unfold zlen. rewrite rev_length. pose proof (hex_rev_length 16 n w H ltac:(lia)). lia.
Qed.

Lemma hex_rev_full fuel : forall w n, (1 <= w <= fuel)%nat -> 16 ^ Z.of_nat (w - 1) <= n < 16 ^ Z.of_nat w -> rev (hex_rev fuel n) = hex w n.
Proof.
  induction fuel as [|f IH]; intros w n Hw H; [lia|]. destruct w as [|w]; [lia|]. cbn [hex_rev hex rev].
  replace (S w - 1)%nat with w in H by lia. rewrite Nat2Z.inj_succ, Z.pow_succ_r in H by lia.
  assert (Hp : 0 < 16 ^ Z.of_nat w) by (apply Z.pow_pos_nonneg; lia).
  rewrite hex_digit_char by (apply Z.mod_pos_bound; lia). f_equal.
  destruct w as [|w].
  - cbn in H. rewrite (Z.div_small n 16) by lia. reflexivity.
  - replace (n / 16 =? 0) with false.
    2:{ symmetry. apply Z.eqb_neq. rewrite Nat2Z.inj_succ, Z.pow_succ_r in H by lia. assert (0 < 16 ^ Z.of_nat w) by (apply Z.pow_pos_nonneg; lia).
        assert (1 <= n / 16) by (apply Z.div_le_lower_bound; lia). lia. }
    apply IH; [lia|]. replace (S w - 1)%nat with w by lia. rewrite Nat2Z.inj_succ, Z.pow_succ_r in H by lia.
    split; [apply Z.div_le_lower_bound; lia|apply Z.div_lt_upper_bound; [lia|]]. rewrite Nat2Z.inj_succ, Z.pow_succ_r by lia. lia.
Qed.

Lemma hex_length w : forall n, length (hex w n) = w.
Proof. induction w; intros; cbn [hex]; auto. rewrite app_length, IHw. cbn. lia. Qed.

Lemma fmt_full w n : (1 <= w <= 16)%nat -> 16 ^ Z.of_nat (w - 1) <= n < 16 ^ Z.of_nat w -> fmt_upper_hex (Z.of_nat w) n = hex w n.
Proof.
  intros Hw H. unfold fmt_upper_hex. cbv zeta. rewrite (hex_rev_full 16 w n) by auto. unfold zlen. rewrite hex_length, Z.sub_diag. reflexivity.
Qed.

Lemma fmt_inj w n m : (1 <= w <= 16)%nat -> 0 <= n < 16 ^ Z.of_nat w -> 0 <= m < 16 ^ Z.of_nat w ->
  fmt_upper_hex (Z.of_nat w) n = fmt_upper_hex (Z.of_nat w) m -> n = m.
Proof.
  intros Hw Hn Hm E. assert (16 ^ Z.of_nat w <= 16 ^ 16) by (apply Z.pow_le_mono_r; lia).
  rewrite <- (fmt_val (Z.of_nat w) n), <- (fmt_val (Z.of_nat w) m) by lia. now rewrite E.
Qed.

Lemma app_eq_len {A} (a b c d : list A) : a ++ b = c ++ d -> length a = length c -> a = c /\ b = d.
Proof.
  revert c. induction a as [|x a IH]; intros [|y c] E L; cbn in *; try discriminate; auto.
  injection E as -> E. destruct (IH c E) as [-> ->]; auto.
Qed.

Lemma flat_fmt_inj : forall l m, bytes_ok l -> bytes_ok m -> length l = length m ->
  flat_map (fmt_upper_hex 2) l = flat_map (fmt_upper_hex 2) m -> l = m.
Proof.
  induction l as [|x l IH]; intros [|y m] Hl Hm Hlen E; cbn in Hlen; try discriminate; auto. cbn [flat_map] in E.
  inversion Hl; subst. inversion Hm; subst. unfold is_byte in *.
  pose proof (fmt_length 2 x ltac:(cbn; lia) ltac:(lia)) as Lx. pose proof (fmt_length 2 y ltac:(cbn; lia) ltac:(lia)) as Ly. cbn in Lx, Ly.
  apply app_eq_len in E as [E1 E2]; [|congruence]. f_equal.
  - apply (fmt_inj 2); try (cbn; lia). exact E1.
  - apply IH; auto.
Qed.

Lemma flat_fmt_length l : bytes_ok l -> length (flat_map (fmt_upper_hex 2) l) = (2 * length l)%nat.
Proof.
  induction 1 as [|x l Hx H IH]; auto. cbn [flat_map length]. rewrite app_length, IH.
  unfold is_byte in Hx. pose proof (fmt_length 2 x ltac:(cbn; lia) ltac:(lia)) as Lx. cbn in Lx. rewrite Lx. lia.
Qed.

Lemma guid_parts a b c d : guid_ok a b c d ->
  length (fmt_upper_hex 8 a) = 8%nat /\ length (fmt_upper_hex 4 b) = 4%nat /\ length (fmt_upper_hex 4 c) = 4%nat /\
  length (flat_map (fmt_upper_hex 2) (ztake 2 d)) = 4%nat /\ length (flat_map (fmt_upper_hex 2) (zdrop 2 d)) = 12%nat.
Proof.
  intros (Ha & Hb & Hc & Hl & Hd).
  pose proof (fmt_length 8 a Ha ltac:(lia)). pose proof (fmt_length 4 b Hb ltac:(lia)). pose proof (fmt_length 4 c Hc ltac:(lia)).
  pose proof (flat_fmt_length (ztake 2 d) (bytes_ok_ztake _ _ Hd)) as E1. pose proof (flat_fmt_length (zdrop 2 d) (bytes_ok_zdrop _ _ Hd)) as E2.
  rewrite ztake_firstn in E1 at 2. rewrite zdrop_skipn in E2 at 2. rewrite firstn_length in E1. rewrite skipn_length in E2. rewrite Hl in *.
  cbn in *. auto.
Qed.

Lemma guid_display_length a b c d : guid_ok a b c d -> length (guid_display (mkGuid a b c d)) = 36%nat.
Proof.
  intros H. destruct (guid_parts _ _ _ _ H) as (H1 & H2 & H3 & H4 & H5). unfold guid_display. cbn [g1 g2 g3 g4].
  rewrite !app_length, H1, H2, H3, H4, H5. reflexivity.
Qed.

Lemma guid_display_inj a b c d a' b' c' d' : guid_ok a b c d -> guid_ok a' b' c' d' ->
  guid_display (mkGuid a b c d) = guid_display (mkGuid a' b' c' d') -> a = a' /\ b = b' /\ c = c' /\ d = d'.
Proof.
  intros H H' E. destruct (guid_parts _ _ _ _ H) as (H1 & H2 & H3 & H4 & H5). destruct (guid_parts _ _ _ _ H') as (K1 & K2 & K3 & K4 & K5).
  destruct H as (Ha & Hb & Hc & Hl & Hd). destruct H' as (Ha' & Hb' & Hc' & Hl' & Hd').
  unfold guid_display in E. cbn [g1 g2 g3 g4] in E.
  apply app_eq_len in E as [E1 E]; [|congruence]. cbn [app] in E. injection E as E.
  apply app_eq_len in E as [E2 E]; [|congruence]. injection E as E.
  apply app_eq_len in E as [E3 E]; [|congruence]. injection E as E.
  apply app_eq_len in E as [E4 E]; [|congruence]. injection E as E.
  apply flat_fmt_inj in E4; auto using bytes_ok_ztake. 2:{ rewrite !ztake_firstn, !firstn_length. lia. }
  apply flat_fmt_inj in E; auto using bytes_ok_zdrop. 2:{ rewrite !zdrop_skipn, !skipn_length. lia. }
  split; [apply (fmt_inj 8) in E1; auto; lia|]. split; [apply (fmt_inj 4) in E2; auto; lia|]. split; [apply (fmt_inj 4) in E3; auto; lia|].
  rewrite <- (ztake_zdrop 2 d), <- (ztake_zdrop 2 d'). congruence.
Qed.

Lemma guid_display_canonical a b c d : guid_ok a b c d -> guid_full a b c d ->
  guid_display (mkGuid a b c d) = canonical_guid a b c d.
Proof.
  intros (Ha & Hb & Hc & Hl & Hd) (Fa & Fb & Fc & Fd). unfold guid_display, canonical_guid. cbn [g1 g2 g3 g4].
  assert (Hm : forall l, bytes_ok l -> Forall (fun x => 16 <= x) l -> flat_map (fmt_upper_hex 2) l = flat_map (hex 2) l).
  { induction l as [|x l IH]; intros L1 L2; auto. inversion L1; subst. inversion L2; subst. cbn [flat_map]. rewrite IH by auto. f_equal.
    unfold is_byte in *. apply (fmt_full 2); [lia|cbn; lia]. }
  pose proof (fmt_full 8 a ltac:(lia)) as E1. pose proof (fmt_full 4 b ltac:(lia)) as E2. pose proof (fmt_full 4 c ltac:(lia)) as E3.
  cbn [Nat.sub] in *. change (Z.of_nat 8) with 8 in *. change (Z.of_nat 7) with 7 in *. change (Z.of_nat 4) with 4 in *. change (Z.of_nat 3) with 3 in *.
  rewrite E1, E2, E3 by lia. rewrite ztake_firstn, zdrop_skipn.
  assert (Hf : forall n, Forall (fun x => 16 <= x) (firstn n d) /\ Forall (fun x => 16 <= x) (skipn n d)).
  { intros n. apply Forall_app. now rewrite firstn_skipn. }
  assert (Hb2 : forall n, bytes_ok (firstn n d) /\ bytes_ok (skipn n d)).
  { intros n. apply bytes_ok_app. now rewrite firstn_skipn. }
  rewrite !Hm by (apply Hb2 || apply Hf). reflexivity.
Qed.

(** ** File references *)
Lemma fr_split r : bytes_ok r -> zlen r = 8 ->
  fr_number r = le_val (ztake 6 r) /\ fr_sequence r = le_val (zdrop 6 r) /\
  0 <= fr_number r < 2 ^ 48 /\ 0 <= fr_sequence r < 2 ^ 16 /\ fr_number r + 2 ^ 48 * fr_sequence r = le_val r.
Proof.
  intros Hb Hl.
  assert (E : le_val r = le_val (ztake 6 r) + 2 ^ 48 * le_val (zdrop 6 r)).
  { destruct r as [|b0 [|b1 [|b2 [|b3 [|b4 [|b5 r]]]]]]; try (exfalso; cbn in Hl; lia).
    change (ztake 6 _) with ([b0; b1; b2; b3; b4; b5] ++ ztake 0 r). change (zdrop 6 _) with (zdrop 0 r). rewrite ztake_0, zdrop_0 by lia.
    cbn [app le_val]. lia. }
  pose proof (le_val_nonneg _ (bytes_ok_ztake 6 _ Hb)). pose proof (le_val_bound _ (bytes_ok_ztake 6 _ Hb)) as B1.
  pose proof (le_val_nonneg _ (bytes_ok_zdrop 6 _ Hb)). pose proof (le_val_bound _ (bytes_ok_zdrop 6 _ Hb)) as B2.
  rewrite zlen_ztake, Hl in B1. rewrite zlen_zdrop, Hl in B2. change (256 ^ _) with (2 ^ 48) in B1. change (256 ^ _) with (2 ^ 16) in B2.
  assert (En : fr_number r = le_val (ztake 6 r)).
  { unfold fr_number. change 281474976710655 with (Z.ones 48). rewrite Z.land_ones by lia. rewrite E.
    rewrite (Z.mul_comm (2 ^ 48)), Z.mod_add by lia. apply Z.mod_small. lia. }
  assert (Es : fr_sequence r = le_val (zdrop 6 r)).
  { unfold fr_sequence. rewrite Z.shiftr_div_pow2 by lia. rewrite E, (Z.mul_comm (2 ^ 48)), Z.div_add, Z.div_small by lia.
    rewrite Z.add_0_l. apply Z.mod_small. lia. }
  rewrite En, Es. repeat split; try lia.
Qed.

Lemma le_val_inj : forall a b, bytes_ok a -> bytes_ok b -> length a = length b -> le_val a = le_val b -> a = b.
Proof.
  induction a as [|x a IH]; intros [|y b] Ha Hb Hl E; cbn in Hl; try discriminate; auto. inversion Ha; subst. inversion Hb; subst.
  unfold is_byte in *. cbn [le_val] in E. assert (x = y) by lia. subst. f_equal. apply IH; auto. lia.
Qed.

Lemma fr_determines r s : bytes_ok r -> bytes_ok s -> zlen r = 8 -> zlen s = 8 ->
  fr_number r = fr_number s -> fr_sequence r = fr_sequence s -> r = s.
Proof.
  intros Hr Hs Lr Ls En Es. destruct (fr_split r Hr Lr) as (_ & _ & _ & _ & E1). destruct (fr_split s Hs Ls) as (_ & _ & _ & _ & E2).
  apply le_val_inj; auto; [unfold zlen in *; lia|]. rewrite <- E1, <- E2. congruence.
Qed.

(** ** Name comparison *)
Lemma u16_upper t c : zlen t = 65536 -> unit_ok c -> u16_to_uppercase t c = Ok (nth (Z.to_nat c) t 0).
Proof.
  intros Ht [H1 H2]. unfold u16_to_uppercase. replace (0 <=? c) with true by lia.
  rewrite (nth_error_nth' t 0); auto. unfold zlen in Ht. lia.
Qed.

Lemma lex_nil y l : lex_lt [] (y :: l).
Proof. exists [], y, l. auto. Qed.
Lemma lex_head x y a b : x < y -> lex_lt (x :: a) (y :: b).
Proof. exists [], y, b. split; auto. right. exists x, a. auto. Qed.
Lemma lex_tail x a b : lex_lt (x :: a) (x :: b) <-> lex_lt a b.
Proof.
  split.
  - intros (c & y & r & E & H). destruct c as [|z c]; cbn in E.
    + injection E as <- <-. destruct H as [H|(z & r' & H & Hlt)]; [discriminate|]. cbn in H. injection H as -> ->. lia.
    + injection E as <- ->. exists c, y, r. split; auto. destruct H as [H|(w & r' & H & Hlt)].
      * injection H as ->. auto.
      * cbn in H. injection H as ->. right. eauto.
  - intros (c & y & r & -> & H). exists (x :: c), y, r. split; auto. destruct H as [->|(w & r' & -> & Hlt)]; [auto|]. right. exists w, r'. auto.
Qed.
Lemma lex_not_nil a : ~ lex_lt a [].
Proof. intros (c & y & r & E & _). destruct c; discriminate. Qed.
Lemma lex_head_lt x y a b : x <> y -> lex_lt (x :: a) (y :: b) -> x < y.
Proof.
  intros Hne (c & z & r & E & H). destruct c as [|w c]; cbn in E; injection E as <- ->.
  - destruct H as [H|(w & r' & H & Hlt)]; [discriminate|]. cbn in H. injection H as -> ->. auto.
  - destruct H as [H|(v & r' & H & _)]; cbn in H; injection H as -> _; lia.
Qed.

Lemma upcase_cmp_spec nt t a b : upcase_table nt = Some t -> zlen t = 65536 -> Forall unit_ok a -> Forall unit_ok b ->
  exists c, upcase_cmp nt a b = Ok c /\ (c = Eq <-> upper t a = upper t b) /\ (c = Lt <-> lex_lt (upper t a) (upper t b)) /\
    (c = Gt <-> lex_lt (upper t b) (upper t a)).
Proof.
  intros Hn Ht Ha. unfold upcase_cmp. rewrite Hn. revert b. induction Ha as [|x a Hx Ha IH]; intros [|y b] Hb; cbn [upcase_cmp_loop upper map].
  - exists Eq. split; auto. split; [tauto|]. split; split; try discriminate; intros H; now apply lex_not_nil in H.
  - exists Lt. split; auto. split; [split; discriminate|]. split; split; try discriminate; auto using lex_nil. intros H; now apply lex_not_nil in H.
  - exists Gt. split; auto. split; [split; discriminate|]. split; split; try discriminate; auto using lex_nil. intros H; now apply lex_not_nil in H.
  - inversion Hb; subst. rewrite !u16_upper by auto. cbn [rbind].
    set (p := nth (Z.to_nat x) t 0). set (q := nth (Z.to_nat y) t 0). destruct (p =? q) eqn:E; cbn [negb].
    + apply Z.eqb_eq in E. destruct (IH b H2) as (c & E1 & E2 & E3 & E4). exists c. split; auto. rewrite E.
      split; [rewrite E2; unfold upper; split; [intros ->; reflexivity|now intros [= K]]|]. rewrite !lex_tail. auto.
    + apply Z.eqb_neq in E. exists (p ?= q). split; auto. split; [rewrite Z.compare_eq_iff; split; [congruence|intros K; injection K as K _; contradiction]|].
      split; [rewrite Z.compare_lt_iff|rewrite Z.compare_gt_iff]; (split; [apply lex_head|intros K; apply lex_head_lt in K; auto]).
Qed.

Lemma lex_trans a b c : lex_lt a b -> lex_lt b c -> lex_lt a c.
Proof.
  revert b c. induction a as [|x a IH]; intros [|y b] [|z c] H1 H2; try (now apply lex_not_nil in H1); try (now apply lex_not_nil in H2).
  - apply lex_nil.
  - destruct (Z.eq_dec x y) as [->|Hxy].
    + destruct (Z.eq_dec y z) as [->|Hyz].
      * rewrite lex_tail in *. eauto.
      * apply lex_head. eapply lex_head_lt; eauto.
    + pose proof (lex_head_lt _ _ _ _ Hxy H1). destruct (Z.eq_dec y z) as [->|Hyz]; [now apply lex_head|].
      pose proof (lex_head_lt _ _ _ _ Hyz H2). apply lex_head. lia.
Qed.

Lemma upcase_preorder nt t a b c : upcase_table nt = Some t -> zlen t = 65536 ->
  Forall unit_ok a -> Forall unit_ok b -> Forall unit_ok c ->
  upcase_cmp nt a a = Ok Eq /\
  (exists x, upcase_cmp nt a b = Ok x /\ upcase_cmp nt b a = Ok (CompOpp x)) /\
  (upcase_cmp nt a b <> Ok Gt -> upcase_cmp nt b c <> Ok Gt -> upcase_cmp nt a c <> Ok Gt) /\
  (upcase_cmp nt a b = Ok Lt -> upcase_cmp nt b c <> Ok Gt -> upcase_cmp nt a c = Ok Lt) /\
  (upcase_cmp nt a b <> Ok Gt -> upcase_cmp nt b c = Ok Lt -> upcase_cmp nt a c = Ok Lt).
Proof.
  intros Hn Ht Ha Hb Hc.
  destruct (upcase_cmp_spec nt t a a Hn Ht Ha Ha) as (aa & Eaa & Aaa & _ & _).
  destruct (upcase_cmp_spec nt t a b Hn Ht Ha Hb) as (ab & Eab & A1 & A2 & A3).
  destruct (upcase_cmp_spec nt t b a Hn Ht Hb Ha) as (ba & Eba & B1 & B2 & B3).
  destruct (upcase_cmp_spec nt t b c Hn Ht Hb Hc) as (bc & Ebc & C1 & C2 & C3).
  destruct (upcase_cmp_spec nt t a c Hn Ht Ha Hc) as (ac & Eac & D1 & D2 & D3).
  rewrite Eaa, Eab, Eba, Ebc, Eac. rewrite (proj2 Aaa eq_refl). split; auto. split.
  { exists ab. split; auto. f_equal. destruct ab; cbn.
    - apply B1. symmetry. now apply A1.
    - apply B3. now apply A2.
    - apply B2. now apply A3. }
  assert (Hle : forall x u v, (x = Eq <-> u = v) -> (x = Lt <-> lex_lt u v) -> (x = Gt <-> lex_lt v u) -> @Ok comparison x <> Ok Gt -> u = v \/ lex_lt u v).
  { intros x u v K1 K2 K3 K. destruct x; [left; tauto|right; tauto|congruence]. }
  split; [|split].
  - intros H1 H2 [= ->]. pose proof (proj1 D3 eq_refl) as H3.
    destruct (Hle _ _ _ A1 A2 A3 H1) as [E1|L1]; destruct (Hle _ _ _ C1 C2 C3 H2) as [E2|L2].
    + assert (X : Gt = Eq) by (apply D1; congruence). discriminate.
    + assert (X : Gt = Lt) by (apply D2; rewrite E1; auto). discriminate.
    + assert (X : Gt = Lt) by (apply D2; rewrite <- E2; auto). discriminate.
    + assert (X : Gt = Lt) by (apply D2; eapply lex_trans; eauto). discriminate.
  - intros [= ->] H2. f_equal. apply D2. pose proof (proj1 A2 eq_refl). destruct (Hle _ _ _ C1 C2 C3 H2) as [<-|L2]; auto. eapply lex_trans; eauto.
  - intros H1 [= ->]. f_equal. apply D2. pose proof (proj1 C2 eq_refl). destruct (Hle _ _ _ A1 A2 A3 H1) as [->|L2]; auto. eapply lex_trans; eauto.
Qed.
