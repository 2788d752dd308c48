(** * Proofs for C64: a device that splits its reads, beside one that never does. *)
From Coq Require Import Lia.
From Verif Require Import Base Dev Types Record DataRuns Stream NonResident Resident BootSector Attribute File Structured AttrList Upcase Index Time Volume Shell
  Spec SpecTotal SpecFaults SpecSteady BaseProofs DevProofs ListTotalProofs ShellTotalProofs FaultProofs.

(** The bytes that a read may return. *)
Definition win (img : list Z) (q m : Z) : list Z := ztake m (from_pos q img).
Lemma win_neg img q m : q < 0 -> win img q m = [].
Proof. intros H. unfold win, from_pos. replace (q <? 0) with true by lia. apply ztake_nil. Qed.
Lemma win_rest img q m b a : win img q m = b ++ a -> win img (q + zlen b) (m - zlen b) = a.
Proof.
  intros H. pose proof (zlen_nonneg b). pose proof (zlen_nonneg a). destruct (Z_lt_le_dec q 0) as [L|L].
  { rewrite win_neg in H by exact L. symmetry in H. apply app_eq_nil in H as (-> & ->). rewrite win_neg; [reflexivity|]. change (zlen (@nil Z)) with 0. lia. }
  assert (Hl : zlen b + zlen a <= m \/ b ++ a = []).
  { destruct (Z_le_gt_dec m 0) as [M|M]; [right; unfold win in H; rewrite ztake_0 in H by exact M; congruence|]. left. apply (f_equal zlen) in H. unfold win in H. rewrite zlen_ztake, zlen_app in H. lia. }
  destruct Hl as [Hl|Hl].
  2: { apply app_eq_nil in Hl as (-> & ->). change (zlen (@nil Z)) with 0. rewrite Z.add_0_r, Z.sub_0_r. exact H. }
  unfold win in *. rewrite from_pos_nonneg in H by lia. rewrite from_pos_nonneg by lia. rewrite (Z.add_comm q), <- zdrop_zdrop by lia.
  replace (ztake (m - zlen b) (zdrop (zlen b) (zdrop q img))) with (zdrop (zlen b) (ztake m (zdrop q img))) by (rewrite zdrop_ztake by lia; reflexivity).
  rewrite H, zdrop_app, zdrop_all, zdrop_0 by lia. reflexivity.
Qed.
Lemma win_len img q m : zlen (win img q m) <= Z.max 0 m /\ (win img q m <> [] -> 0 <= q /\ q + zlen (win img q m) <= zlen img).
Proof.
  split; [unfold win; rewrite zlen_ztake; lia|]. intros H. destruct (Z_lt_le_dec q 0); [rewrite win_neg in H by lia; contradiction|]. split; auto.
  assert (0 < zlen (win img q m)) by (pose proof (zlen_nonneg (win img q m)); destruct (Z.eq_dec (zlen (win img q m)) 0) as [E|]; [apply zlen_0 in E; contradiction|lia]).
  unfold win in *. rewrite from_pos_nonneg in * by lia. rewrite zlen_ztake, zlen_zdrop in *. lia.
Qed.

Definition full (e : dev) : Prop := Forall (fun x => exists k, x = RShort k /\ zlen (d_img e) <= Z.of_nat k + 1) (d_reads e) /\ Forall seek_ok (d_seeks e).
(** Two devices with the same contents: neither fails, and the second one never splits a read and has at least as many calls scheduled. *)
Definition smooth (d e : dev) : Prop :=
  d_img e = d_img d /\ zlen (d_img d) <= TWO64 /\ faultless d /\ full e /\ (length (d_reads d) <= length (d_reads e))%nat /\ (length (d_seeks d) <= length (d_seeks e))%nat.

Lemma short_read m d : faultless d -> exists d' b a, dev_read m d = (d', Ok b) /\ win (d_img d) (d_pos d) m = b ++ a /\ (b = [] -> a = []) /\
  d_img d' = d_img d /\ d_pos d' = d_pos d + zlen b /\ d_reads d' = tl (d_reads d) /\ d_seeks d' = d_seeks d.
Proof.
  intros (H1 & H2). unfold dev_read. fold (win (d_img d) (d_pos d) m). set (w := win (d_img d) (d_pos d) m). destruct (d_reads d) as [|[k|x] t] eqn:E.
  - do 2 eexists. exists []. split; [reflexivity|]. rewrite app_nil_r. auto 6.
  - do 2 eexists. exists (zdrop (Z.of_nat k + 1) w). split; [reflexivity|]. split; [now rewrite ztake_zdrop|]. split; [|auto].
    intros Hn. pose proof (zlen_nonneg w). assert (zlen w = 0) as E0 by (apply (f_equal zlen) in Hn; rewrite zlen_ztake in Hn; change (zlen (@nil Z)) with 0 in Hn; lia).
    apply zlen_0 in E0. rewrite E0. reflexivity.
  - inversion H1 as [|? ? K]. destruct K.
Qed.
Lemma full_read m e : full e -> dev_read m e = (mkDev (d_img e) (d_pos e + zlen (win (d_img e) (d_pos e) m)) (tl (d_reads e)) (d_seeks e), Ok (win (d_img e) (d_pos e) m)).
Proof.
  intros (H1 & H2). unfold dev_read. fold (win (d_img e) (d_pos e) m). set (w := win (d_img e) (d_pos e) m). destruct (d_reads e) as [|x t] eqn:E; [reflexivity|].
  inversion H1 as [|? ? (k & -> & Hk)]; subst. cbn [tl].
  rewrite (ztake_all (Z.of_nat k + 1) w); [reflexivity|]. unfold w, win. rewrite zlen_ztake. pose proof (zlen_from_pos (d_pos e) (d_img e)). pose proof (zlen_nonneg (d_img e)). lia.
Qed.
Lemma ok_seek q d : Forall seek_ok (d_seeks d) -> dev_seek q d = (mkDev (d_img d) q (d_reads d) (tl (d_seeks d)), Ok tt).
Proof. intros H. unfold dev_seek. destruct (d_seeks d) as [|x t]; [reflexivity|]. inversion H as [|? ? K]; subst. unfold seek_ok in K. subst. reflexivity. Qed.
Lemma Forall_tl {A} (P : A -> Prop) l : Forall P l -> Forall P (tl l).
Proof. destruct l; [auto|]. now inversion 1. Qed.
Lemma tl_le {A B} (l : list A) (m : list B) : (length l <= length m)%nat -> (length (tl l) <= length (tl m))%nat.
Proof. destruct l, m; cbn; lia. Qed.
Lemma tl_le_left {A B} (l : list A) (m : list B) : (length l <= length m)%nat -> (length (tl l) <= length m)%nat.
Proof. destruct l, m; cbn; lia. Qed.

Section Smooth.
  Notation K := (fun _ : iokind => False).
  Definition anything (d : dev) : Prop := True.
  Notation osim := (sim smooth anything).
  Lemma smooth_reads d e : smooth d e -> fu True (length (d_reads d)) (length (d_reads e)).
  Proof. intros (_ & _ & _ & _ & H & _). left. auto. Qed.
  Lemma smooth_seeks d e : smooth d e -> fu True (length (d_seeks d)) (length (d_seeks e)).
  Proof. intros (_ & _ & _ & _ & _ & H). left. auto. Qed.
  Lemma smooth_any d e : True -> smooth d e -> anything d.
  Proof. intros. exact Logic.I. Qed.

  Lemma outcome_fuel {A} d y : outcome smooth anything (bM K True) (d, @OutOfFuel A) y.
  Proof. destruct y. right. split; [exact Logic.I|]. right. auto. Qed.

  (** The first device may still be inside of what the second one has yet to read: [b] has been read already. *)
  Lemma exact_smooth k : forall j n acc b a d e, (k <= j)%nat -> smooth d e -> d_pos d = d_pos e + zlen b -> win (d_img e) (d_pos e) n = b ++ a -> (b = [] \/ a <> []) ->
    outcome smooth anything (bM K True) (dev_read_exact_loop k (n - zlen b) (acc ++ b) d) (dev_read_exact_loop j n acc e).
  Proof.
    induction k as [|k IH]; intros j n acc b a d e Hj Hs Hp Hw Hb; destruct (win_len (d_img e) (d_pos e) n) as (W1 & W2); rewrite Hw, zlen_app in W1.
    - cbn [dev_read_exact_loop]. destruct (n - zlen b <=? 0) eqn:E1; [|apply outcome_fuel].
      assert (b = [] /\ n <= 0) as (-> & Hn).
      { destruct Hb as [->|Ha]; [split; auto; change (zlen (@nil Z)) with 0 in *; lia|]. exfalso. pose proof (zlen_nonneg a). pose proof (zlen_nonneg b). assert (zlen a <> 0) by (intros E; apply zlen_0 in E; auto). lia. }
      rewrite app_nil_r. destruct j; cbn [dev_read_exact_loop]; replace (n <=? 0) with true by lia; left; auto.
    - destruct j as [|j]; [lia|]. cbn [dev_read_exact_loop]. pose proof (zlen_nonneg a). pose proof (zlen_nonneg b).
      destruct (n - zlen b <=? 0) eqn:E1.
      { assert (b = [] /\ n <= 0) as (-> & Hn).
        { destruct Hb as [->|Ha]; [split; auto; change (zlen (@nil Z)) with 0 in *; lia|]. exfalso. assert (zlen a <> 0) by (intros E; apply zlen_0 in E; auto). lia. }
        rewrite app_nil_r. replace (n <=? 0) with true by lia. left. auto. }
      replace (n <=? 0) with false by lia. destruct Hs as (Hi & H64 & Hf & He & Hr & Hk). rewrite (full_read n e He), Hw.
      destruct (short_read (n - zlen b) d Hf) as (d' & b2 & a2 & -> & Hw2 & Hn2 & Hi' & Hp' & Hr' & Hk'). rewrite <- Hi, Hp, (win_rest _ _ _ _ _ Hw) in Hw2. subst a.
      assert (Hf' : faultless d') by (split; [rewrite Hr'; apply Forall_tl, Hf|rewrite Hk'; apply Hf]).
      set (e' := mkDev (d_img e) (d_pos e + zlen (b ++ b2 ++ a2)) (tl (d_reads e)) (d_seeks e)).
      assert (Hs' : smooth d' e').
      { split; [cbn; congruence|]. split; [congruence|]. split; auto. split; [split; [apply Forall_tl, He|apply He]|]. unfold e'. cbn [d_reads d_seeks]. rewrite Hr', Hk'. auto using tl_le. }
      destruct b2 as [|x b2].
      { specialize (Hn2 eq_refl). subst a2. destruct Hb as [->|Hb]; [|contradiction]. cbn [app] in *. left. auto. }
      rewrite <- app_assoc. destruct a2 as [|y a2].
      + rewrite app_nil_r in *. destruct (b ++ x :: b2) as [|z t] eqn:Eb; [destruct b; discriminate|]. rewrite <- Eb in *.
        replace (n - zlen b - zlen (x :: b2)) with (n - zlen (b ++ x :: b2) - zlen (@nil Z)) by (rewrite zlen_app; change (zlen (@nil Z)) with 0; lia).
        replace (acc ++ b ++ x :: b2) with ((acc ++ b ++ x :: b2) ++ []) at 1 by apply app_nil_r.
        apply (IH j (n - zlen (b ++ x :: b2)) (acc ++ b ++ x :: b2) [] (win (d_img e') (d_pos e') (n - zlen (b ++ x :: b2)))); auto.
        * lia.
        * unfold e'. cbn [d_pos]. rewrite ?app_nil_r. change (zlen (@nil Z)) with 0. rewrite Hp', Hp, zlen_app. lia.
      + assert (Hse : smooth d' e).
        { split; [congruence|]. split; [congruence|]. split; auto. split; auto. rewrite Hr', Hk'. auto using tl_le_left. }
        assert (Hww : win (d_img e) (d_pos e) n = (b ++ x :: b2) ++ y :: a2) by (rewrite Hw, <- app_assoc; reflexivity).
        pose proof (IH (S j) n acc (b ++ x :: b2) (y :: a2) d' e ltac:(lia) Hse ltac:(rewrite Hp', Hp, zlen_app; lia) Hww ltac:(right; discriminate)) as G.
        cbn [dev_read_exact_loop] in G. replace (n <=? 0) with false in G by lia. rewrite (full_read n e He), Hw in G.
        replace (n - zlen (b ++ x :: b2)) with (n - zlen b - zlen (x :: b2)) in G by (rewrite zlen_app; lia). exact G.
  Qed.
  Lemma smooth_at_read p n : osim (bM K True) (do _u <- dev_seek p; dev_read_exact n) (do _u <- dev_seek p; dev_read_exact n).
  Proof.
    intros d e (Hi & H64 & Hf & He & Hr & Hk). unfold mbind. rewrite !ok_seek by (apply Hf || apply He). unfold dev_read_exact. cbn [d_reads].
    pose proof (exact_smooth (length (d_reads d) + 2) (length (d_reads e) + 2) n [] [] (win (d_img e) p n) (mkDev (d_img d) p (d_reads d) (tl (d_seeks d)))
      (mkDev (d_img e) p (d_reads e) (tl (d_seeks e)))) as G. change (zlen (@nil Z)) with 0 in G. rewrite Z.sub_0_r in G. apply G; auto; try lia.
    - split; [exact Hi|]. split; auto. split; [split; [apply Hf|apply Forall_tl, Hf]|]. split; [split; [apply He|apply Forall_tl, He]|]. cbn [d_reads d_seeks]. auto using tl_le.
    - cbn [d_pos]. lia.
  Qed.

  (** Reading from data runs. *)
  Lemma run_plain ss m : (exists ss' x, forall d, ss_read_data_run ss m d = (d, (ss', x))) \/
    exists r p, ss_run ss = Some r /\ r_pos r = Some p /\ r_sp r < r_alloc r /\ ss_pos ss < ss_size ss /\ p + r_sp r <= U64_MAX.
  Proof.
    unfold ss_read_data_run. destruct (ss_run ss) as [r|]; [|left; eauto]. destruct (r_alloc r <=? r_sp r) eqn:E1; [left; eauto|].
    destruct (Z.max 0 (ss_size ss - ss_pos ss) =? 0) eqn:E2; [left; eauto|]. unfold run_read. replace (run_remaining r =? 0) with false by (unfold run_remaining; lia).
    destruct (r_pos r) as [p|] eqn:E3; [|left; eauto]. destruct (U64_MAX <? p + r_sp r) eqn:E4; [left; eauto|]. right. exists r, p. rewrite E3. repeat split; auto; lia.
  Qed.
  Definition wanted (ss : stream_state) (r : run) (m : Z) : Z := Z.min (Z.min m (Z.max 0 (ss_size ss - ss_pos ss))) (run_remaining r).
  Definition moved (ss : stream_state) (r : run) (b : list Z) : stream_state :=
    mkSS (Some (mkRun (r_pos r) (r_alloc r) (r_sp r + zlen b))) (ss_pos ss + zlen b) (ss_size ss).
  Lemma wanted_moved ss r b m : zlen b = 0 \/ zlen b < wanted ss r m ->
    wanted (moved ss r b) (mkRun (r_pos r) (r_alloc r) (r_sp r + zlen b)) (m - zlen b) = wanted ss r m - zlen b.
  Proof.
    pose proof (zlen_nonneg b) as H0. unfold wanted, run_remaining, moved. cbn [ss_pos ss_size r_sp r_alloc]. revert H0.
    generalize (zlen b) as x, (ss_size ss) as y, (ss_pos ss) as z, (r_alloc r) as u, (r_sp r) as v. clear. intros x y z u v H0 [->|H]; lia.
  Qed.
  Lemma wanted_inside ss r m x : x < wanted ss r m -> r_sp r + x < r_alloc r \/ x < 0.
  Proof. unfold wanted, run_remaining. lia. Qed.
  Lemma wanted_before ss r m x : x < wanted ss r m -> ss_pos ss + x < ss_size ss \/ x < 0.
  Proof. unfold wanted. lia. Qed.
  Lemma wanted_most ss r m : wanted ss r m <= m.
  Proof. unfold wanted. lia. Qed.
  Lemma run_device ss r p m d : ss_run ss = Some r -> r_pos r = Some p -> r_sp r < r_alloc r -> ss_pos ss < ss_size ss -> p + r_sp r <= U64_MAX -> Forall seek_ok (d_seeks d) ->
    ss_read_data_run ss m d =
    match dev_read (wanted ss r m) (mkDev (d_img d) (p + r_sp r) (d_reads d) (tl (d_seeks d))) with
    | (d2, Ok bs) => (d2, (moved ss r bs, Ok bs))
    | (d2, x) => (d2, (mkSS (Some r) (ss_pos ss) (ss_size ss), x))
    end.
  Proof.
    intros H1 H2 H3 H4 H5 H6. unfold ss_read_data_run, run_read, wanted, moved. rewrite H1, H2. replace (r_alloc r <=? r_sp r) with false by lia.
    replace (Z.max 0 (ss_size ss - ss_pos ss) =? 0) with false by lia. replace (run_remaining r =? 0) with false by (unfold run_remaining; lia).
    replace (U64_MAX <? p + r_sp r) with false by lia. rewrite (ok_seek _ _ H6). destruct (dev_read _ _) as [d2 [bs|x| |]]; reflexivity.
  Qed.

  Section Stream.
    Variable S0 : Type.
    Variable o : stream_ops S0.
    Hypothesis Ho : lens o.
    Hypothesis Ha : forall s, osim (bS K True) (so_advance o s) (so_advance o s).
    Lemma outcome_fuel_S {A} d (s : S0) y : outcome smooth anything (bS K True) (d, (s, @OutOfFuel A)) y.
    Proof. destruct y. right. split; [exact Logic.I|]. right. auto. Qed.
    (** The first device is inside of what the second one has yet to read: [b] has been read, [a] is still to be. *)
    Definition inside (img : list Z) (s : S0) (m : Z) (b a : list Z) (s' : S0) : Prop := exists r p,
      ss_run (so_ss o s) = Some r /\ r_pos r = Some p /\ r_sp r < r_alloc r /\ ss_pos (so_ss o s) < ss_size (so_ss o s) /\ p + r_sp r <= U64_MAX /\
      win img (p + r_sp r) (wanted (so_ss o s) r m) = b ++ a /\ s' = so_set o s (moved (so_ss o s) r b).
    Lemma moved_moved ss r b b2 : moved (moved ss r b) (mkRun (r_pos r) (r_alloc r) (r_sp r + zlen b)) b2 = moved ss r (b ++ b2).
    Proof. unfold moved. cbn [r_pos r_alloc r_sp ss_pos ss_size]. rewrite zlen_app, !Z.add_assoc. reflexivity. Qed.
    Lemma moved_nil ss r : ss_run ss = Some r -> moved ss r [] = ss.
    Proof. intros H. unfold moved. change (zlen (@nil Z)) with 0. rewrite !Z.add_0_r. destruct ss as [x p n], r. cbn in *. congruence. Qed.

    Lemma stream_smooth k : forall j s s' n acc b d e, (k <= j)%nat -> smooth d e -> (b = [] /\ s' = s \/ exists a, a <> [] /\ inside (d_img e) s (n - zlen acc) b a s') ->
      outcome smooth anything (bS K True) (stream_read_loop o k s' n (acc ++ b) d) (stream_read_loop o j s n acc e).
    Proof.
      induction k as [|k IH]; intros j s s' n acc b d e Hj Hs Hb.
      { cbn [stream_read_loop]. destruct (n <=? zlen (acc ++ b)) eqn:E1; [|apply outcome_fuel_S]. destruct Hb as [(-> & ->)|(a & Hna & r & p & _ & _ & _ & _ & _ & Hw & _)].
        - rewrite app_nil_r in *. destruct j; cbn [stream_read_loop]; rewrite E1; left; auto.
        - exfalso. pose proof (win_len (d_img e) (p + r_sp r) (wanted (so_ss o s) r (n - zlen acc))) as (W & _). rewrite Hw, zlen_app in W. rewrite zlen_app in E1.
          pose proof (zlen_nonneg b). pose proof (zlen_nonneg a). assert (zlen a <> 0) by (intros E; apply zlen_0 in E; auto). pose proof (wanted_most (so_ss o s) r (n - zlen acc)). clear - W E1 H H0 H1 H2. lia. }
      destruct j as [|j]; [lia|].
      assert (Hend : n <= zlen (acc ++ b) -> b = [] /\ s' = s).
      { intros E1. destruct Hb as [Hb|(a & Hna & r & p & _ & _ & _ & _ & _ & Hw & _)]; [exact Hb|].
        exfalso. pose proof (win_len (d_img e) (p + r_sp r) (wanted (so_ss o s) r (n - zlen acc))) as (W & _). rewrite Hw, zlen_app in W. rewrite zlen_app in E1.
        pose proof (zlen_nonneg b). pose proof (zlen_nonneg a). assert (zlen a <> 0) by (intros E; apply zlen_0 in E; auto). pose proof (wanted_most (so_ss o s) r (n - zlen acc)). clear - W E1 H H0 H1 H2. lia. }
      cbn [stream_read_loop]. destruct (n <=? zlen (acc ++ b)) eqn:E1.
      { destruct (Hend ltac:(lia)) as (-> & ->). rewrite app_nil_r in *. rewrite E1. left. auto. }
      assert (E2 : (n <=? zlen acc) = false) by (rewrite zlen_app in E1; pose proof (zlen_nonneg b); lia). rewrite E2.
      assert (Hfwd : forall s1 d1 e1, smooth d1 e1 -> outcome smooth anything (bS K True)
        match so_advance o s1 d1 with (d2, (s2, Ok true)) => stream_read_loop o k s2 n acc d2 | (d2, (s2, Ok false)) => (d2, (s2, Ok acc)) | (d2, (s2, Err x)) => (d2, (s2, Err x))
          | (d2, (s2, Panic)) => (d2, (s2, Panic)) | (d2, (s2, OutOfFuel)) => (d2, (s2, OutOfFuel)) end
        match so_advance o s1 e1 with (d2, (s2, Ok true)) => stream_read_loop o j s2 n acc d2 | (d2, (s2, Ok false)) => (d2, (s2, Ok acc)) | (d2, (s2, Err x)) => (d2, (s2, Err x))
          | (d2, (s2, Panic)) => (d2, (s2, Panic)) | (d2, (s2, OutOfFuel)) => (d2, (s2, OutOfFuel)) end).
      { intros s1 d1 e1 H1. pose proof (Ha s1 d1 e1 H1) as O. destruct (so_advance o s1 d1) as [d2 [s2 x2]], (so_advance o s1 e1) as [e2 [s3 x3]].
        destruct O as [(H2 & [= -> ->])|(_ & [(q & [] & _)|(_ & E)])]; [|cbn [snd] in E; subst x2; apply outcome_fuel_S].
        destruct x2 as [[|]|x| |]; try (left; split; [exact H2|reflexivity]). specialize (IH j s2 s2 n acc [] d2 e2 ltac:(lia) H2 (or_introl (conj eq_refl eq_refl))).
        rewrite app_nil_r in IH. exact IH. }
      (* without the device *)
      assert (Hcase : (b = [] /\ s' = s /\ exists ss' x, forall d, ss_read_data_run (so_ss o s) (n - zlen acc) d = (d, (ss', x))) \/
        exists a, (b = [] \/ a <> []) /\ inside (d_img e) s (n - zlen acc) b a s').
      { destruct Hb as [(-> & ->)|(a & Hna & Hin)]; [|right; exists a; auto]. destruct (run_plain (so_ss o s) (n - zlen acc)) as [H|(r & p & H1 & H2 & H3 & H4 & H5)]; [left; auto|].
        right. eexists. split; [left; reflexivity|]. exists r, p. split; auto. split; auto. split; auto. split; auto. split; auto. split; [reflexivity|].
        rewrite moved_nil by exact H1. symmetry. apply Ho. }
      destruct Hcase as [(-> & -> & ss' & x & Hx)|(a & Hna & r & p & H1 & H2 & H3 & H4 & H5 & Hw & ->)].
      { rewrite app_nil_r, !Hx. destruct x as [[|y t]|x| |]; try (left; split; [exact Hs|reflexivity]); [apply Hfwd; exact Hs|].
        specialize (IH j (so_set o s ss') (so_set o s ss') n (acc ++ y :: t) [] d e ltac:(lia) Hs (or_introl (conj eq_refl eq_refl))). rewrite app_nil_r in IH. exact IH. }
      (* with the device *)
      pose proof Hs as (Hi & H64 & Hf & He & Hr & Hk). set (m := n - zlen acc) in *.
      set (e' := mkDev (d_img e) (p + r_sp r + zlen (b ++ a)) (tl (d_reads e)) (tl (d_seeks e))).
      assert (Ee : ss_read_data_run (so_ss o s) m e = (e', (moved (so_ss o s) r (b ++ a), Ok (b ++ a)))).
      { rewrite (run_device _ r p m e H1 H2 H3 H4 H5 (proj2 He)), full_read by (split; [apply He|apply Forall_tl, He]). cbn [d_img d_pos d_reads d_seeks]. rewrite Hw. reflexivity. }
      destruct (win_len (d_img e) (p + r_sp r) (wanted (so_ss o s) r m)) as (W1 & W2). rewrite Hw, zlen_app in W1. rewrite Hw, zlen_app in W2.
      pose proof (zlen_nonneg b) as Zb. pose proof (zlen_nonneg a) as Za.
      (* the state that the first device is in *)
      assert (Ed : exists d' b2 a2, ss_read_data_run (moved (so_ss o s) r b) (n - zlen (acc ++ b)) d = (d', (moved (so_ss o s) r (b ++ b2), Ok b2)) /\ a = b2 ++ a2 /\
        (b2 = [] -> a2 = []) /\ d_img d' = d_img d /\ d_reads d' = tl (d_reads d) /\ d_seeks d' = tl (d_seeks d)).
      { set (r' := mkRun (r_pos r) (r_alloc r) (r_sp r + zlen b)).
        assert (Hin : b = [] \/ (zlen b < wanted (so_ss o s) r m /\ p + r_sp r + zlen b < TWO64)).
        { destruct Hna as [->|Hna]; [left; reflexivity|]. right. assert (zlen a <> 0) by (intros E; apply zlen_0 in E; auto).
          assert (b ++ a <> []) by (intros E; apply app_eq_nil in E as (_ & E); auto). destruct (W2 ltac:(assumption)) as (W3 & W4). rewrite Hi in W4. lia. }
        assert (D1 : r_sp r' < r_alloc r') by (unfold r'; cbn [r_sp r_alloc]; destruct Hin as [->|(Hin & _)]; [change (zlen (@nil Z)) with 0; lia|apply wanted_inside in Hin; clear - Hin Zb; lia]).
        assert (D2 : ss_pos (moved (so_ss o s) r b) < ss_size (moved (so_ss o s) r b)) by (cbn [moved ss_pos ss_size]; destruct Hin as [->|(Hin & _)]; [change (zlen (@nil Z)) with 0; lia|apply wanted_before in Hin; clear - Hin Zb; lia]).
        assert (D3 : p + r_sp r' <= U64_MAX) by (unfold r'; cbn [r_sp]; destruct Hin as [->|(_ & Hin)]; [change (zlen (@nil Z)) with 0; lia|unfold TWO64, U64_MAX in *; lia]).
        rewrite (run_device (moved (so_ss o s) r b) r' p _ d eq_refl H2 D1 D2 D3 (proj2 Hf)).
        assert (Ew' : wanted (moved (so_ss o s) r b) r' (n - zlen (acc ++ b)) = wanted (so_ss o s) r m - zlen b).
        { replace (n - zlen (acc ++ b)) with (m - zlen b) by (unfold m; rewrite zlen_app; ring). apply wanted_moved. destruct Hin as [->|(Hin & _)]; [left; reflexivity|right; exact Hin]. }
        rewrite Ew'. destruct (short_read (wanted (so_ss o s) r m - zlen b) (mkDev (d_img d) (p + r_sp r') (d_reads d) (tl (d_seeks d))) ltac:(split; [apply Hf|apply Forall_tl, Hf]))
          as (d' & b2 & a2 & -> & Hw2 & Hn2 & Hi' & _ & Hr' & Hk'). cbn [d_img d_pos d_reads d_seeks] in *.
        exists d', b2, a2. split; [unfold r'; rewrite moved_moved; reflexivity|]. split; [|auto]. rewrite <- Hw2, <- Hi. symmetry. unfold r'. cbn [r_sp]. rewrite Z.add_assoc. exact (win_rest _ _ _ _ _ Hw). }
      destruct Ed as (d' & b2 & a2 & Ed & Ea & Hn2 & Hi' & Hr' & Hk'). destruct Ho as (L1 & L2 & L3). rewrite L1, Ed, Ee, !L2.
      assert (Hf' : faultless d') by (split; [rewrite Hr'; apply Forall_tl, Hf|rewrite Hk'; apply Forall_tl, Hf]).
      assert (Hs' : smooth d' e').
      { split; [cbn; congruence|]. split; [congruence|]. split; auto. split; [split; [apply Forall_tl, He|apply Forall_tl, He]|]. unfold e'. cbn [d_reads d_seeks]. rewrite Hr', Hk'. auto using tl_le. }
      subst a. destruct b2 as [|y b2].
      { specialize (Hn2 eq_refl). subst a2. destruct Hna as [->|Hna]; [|contradiction]. cbn [app]. rewrite app_nil_r. apply Hfwd. exact Hs'. }
      rewrite <- app_assoc. destruct a2 as [|z a2].
      { rewrite app_nil_r. destruct (b ++ y :: b2) as [|w t] eqn:Eb; [destruct b; discriminate|]. rewrite <- Eb.
        specialize (IH j (so_set o s (moved (so_ss o s) r (b ++ y :: b2))) (so_set o s (moved (so_ss o s) r (b ++ y :: b2))) n (acc ++ b ++ y :: b2) [] d' e' ltac:(lia) Hs' (or_introl (conj eq_refl eq_refl))).
        rewrite app_nil_r in IH. exact IH. }
      assert (Hse : smooth d' e).
      { split; [congruence|]. split; [congruence|]. split; auto. split; auto. rewrite Hr', Hk'. auto using tl_le_left. }
      assert (Hww : inside (d_img e) s m (b ++ y :: b2) (z :: a2) (so_set o s (moved (so_ss o s) r (b ++ y :: b2)))).
      { exists r, p. split; auto. split; auto. split; auto. split; auto. split; auto. split; [|reflexivity]. rewrite Hw, <- app_assoc. reflexivity. }
      assert (Hkj : (k <= S j)%nat) by (clear - Hj; lia). assert (Hna2 : z :: a2 <> []) by discriminate.
      pose proof (IH (S j) s (so_set o s (moved (so_ss o s) r (b ++ y :: b2))) n acc (b ++ y :: b2) d' e Hkj Hse (or_intror (ex_intro _ (z :: a2) (conj Hna2 Hww)))) as G.
      cbn [stream_read_loop] in G. rewrite E2 in G. fold m in G. rewrite Ee in G. exact G.
    Qed.
  End Stream.
  Lemma smooth_stream : stream_reads smooth anything K True.
  Proof.
    intros S0 o Ho Ha k k' s n acc Hf d e Hs. rewrite <- (app_nil_r acc) at 1. apply stream_smooth; auto. destruct Hf as [(_ & H)|<-]; auto.
  Qed.
End Smooth.
#[export] Hint Resolve smooth_reads smooth_seeks smooth_any smooth_at_read smooth_stream fu_refl : smooth.

(** ** Two devices *)
Definition top (img : list Z) (n m : nat) : dev := mkDev img 0 (repeat (RShort (length img)) n) (repeat None m).
Lemma top_smooth d n m : faultless d -> zlen (d_img d) <= TWO64 -> (length (d_reads d) <= n)%nat -> (length (d_seeks d) <= m)%nat -> smooth d (top (d_img d) n m).
Proof.
  intros H1 H2 H3 H4. split; [reflexivity|]. split; auto. split; auto. split; [|cbn; rewrite !repeat_length; auto]. split; apply Forall_forall; cbn; intros x Hx; apply repeat_spec in Hx; subst.
  - exists (length (d_img d)). split; [reflexivity|]. unfold zlen. lia.
  - reflexivity.
Qed.
Lemma steady_sim {B} (ended : B -> Prop) (bad : B -> B -> Prop) (call : nat -> dev -> dev * B) : (forall b b', bad b b' -> ~ ended b) ->
  (forall k k', fu True k k' -> sim smooth anything bad (call k) (call k')) -> steady ended call.
Proof.
  intros Hb Hs d e k k' (Hd & He & Hi & H64).
  set (t := top (d_img d) (length (d_reads d) + length (d_reads e)) (length (d_seeks d) + length (d_seeks e))).
  assert (Rd : smooth d t) by (apply top_smooth; auto; lia).
  assert (Re : smooth e t) by (unfold t; rewrite Hi; apply top_smooth; auto; [congruence|lia|lia]).
  pose proof (Hs k (k + k')%nat ltac:(left; split; [exact Logic.I|lia]) d t Rd) as Od. pose proof (Hs k' (k + k')%nat ltac:(left; split; [exact Logic.I|lia]) e t Re) as Oe.
  destruct (call k d) as [d1 x], (call k' e) as [e1 y], (call (k + k')%nat t) as [t1 z]. intros Ex Ey.
  destruct Od as [(Sd & ->)|(_ & Od)]; [|destruct (Hb _ _ Od Ex)]. destruct Oe as [(Se & ->)|(_ & Oe)]; [|destruct (Hb _ _ Oe Ey)].
  split; auto. destruct Sd as (S1 & S2 & S3 & _), Se as (T1 & T2 & T3 & _). split; auto. split; auto. split; congruence.
Qed.
Notation NK := (fun _ : iokind => False).
Lemma io_out {A} (r : res A) : io NK True r -> r = OutOfFuel.
Proof. intros [(k & [] & _)|(_ & E)]. exact E. Qed.
Lemma sim_steady_call {A} (call : nat -> dev -> dev * res A) : (forall k k', fu True k k' -> sim smooth anything (bM NK True) (call k) (call k')) -> steady_call call.
Proof. apply steady_sim. intros b b' H E. exact (E (io_out _ H)). Qed.
Lemma sim_steady_value {S A} (call : nat -> dev -> dev * (S * res A)) : (forall k k', fu True k k' -> sim smooth anything (bS NK True) (call k) (call k')) -> steady_value call.
Proof. apply steady_sim. intros b b' H E. exact (E (io_out _ H)). Qed.
Lemma sim_steady_find {A} (call : nat -> dev -> dev * item A) : (forall k k', fu True k k' -> sim smooth anything (bI NK True) (call k) (call k')) -> steady_find call.
Proof. apply steady_sim. intros b b' (r & -> & H) E. apply io_out in H. subst. apply E. reflexivity. Qed.
Lemma sim_steady_next {S A} (call : nat -> dev -> dev * (S * item A)) : (forall k k', fu True k k' -> sim smooth anything (bSI NK True) (call k) (call k')) -> steady_next call.
Proof. apply steady_sim. intros b b' (r & Er & H) E. apply io_out in H. subst. apply E. exact Er. Qed.
Lemma nk_int : ~ NK Interrupted.
Proof. intros []. Qed.
#[export] Hint Resolve nk_int : smooth.

Lemma upcase_steady nt : steady_call (fun k => read_upcase_table k nt).
Proof. apply sim_steady_call. intros k k' Hf. eapply read_upcase_table_sim; eauto with smooth. Qed.
Lemma file_steady nt n : steady_call (fun _ => ntfs_file nt n).
Proof. apply sim_steady_call. intros k k' Hf. eapply ntfs_file_sim; eauto with smooth. Qed.
Lemma attributes_steady nt st : steady_next (fun k => attrs_next k nt st).
Proof. apply sim_steady_next. intros k k' Hf. eapply attrs_next_sim; eauto with smooth. Qed.
Lemma alist_steady l : steady_next (fun _ => alist_next l).
Proof. apply sim_steady_next. intros k k' Hf. eapply alist_next_sim; eauto with smooth. Qed.
Lemma data_steady nt f name : steady_call (fun k => file_data k nt f name).
Proof. apply sim_steady_call. intros k k' Hf. eapply file_data_sim; eauto with smooth. Qed.
Lemma name_steady nt f ns parent : steady_call (fun k => file_name_of k nt f ns parent).
Proof. apply sim_steady_call. intros k k' Hf. eapply file_name_of_sim; eauto with smooth. Qed.
Lemma value_steady nt a : steady_call (fun _ => attr_value nt a).
Proof. apply sim_steady_call. intros k k' Hf. eapply attr_value_sim; eauto with smooth. Qed.
Lemma read_steady v n : steady_value (fun k => av_read k v n).
Proof. apply sim_steady_value. intros k k' Hf. eapply av_read_sim; eauto with smooth. Qed.
Lemma read_exact_steady v n : steady_value (fun k => rs_read_exact (av_read k) v n).
Proof. apply sim_steady_value. intros k k' Hf. eapply rs_read_exact_sim; eauto with smooth. intros. eapply av_read_sim; eauto with smooth. Qed.
Lemma seek_steady v p : steady_value (fun k => av_seek k v p).
Proof. apply sim_steady_value. intros k k' Hf. eapply av_seek_sim; eauto with smooth. Qed.
Lemma structured_steady {A} nt (new : (Z -> RM aval (list Z)) -> position -> Z -> RM aval A) ty a : parser smooth anything NK True new -> steady_call (fun k => attr_structured k nt new ty a).
Proof. intros H. apply sim_steady_call. intros k k' Hf. eapply attr_structured_sim; eauto with smooth. Qed.
Lemma fn_steady nt ty a : steady_call (fun k => attr_structured k nt fn_new ty a).
Proof. apply structured_steady. apply fn_new_sim. Qed.
Lemma si_steady nt ty a : steady_call (fun k => attr_structured k nt si_new ty a).
Proof. apply structured_steady. apply si_new_sim. Qed.
Lemma oi_steady nt ty a : steady_call (fun k => attr_structured k nt oi_new ty a).
Proof. apply structured_steady. apply oi_new_sim. Qed.
Lemma directory_steady nt f : steady_call (fun k => directory_index k nt f).
Proof. apply sim_steady_call. intros k k' Hf. eapply directory_index_sim; eauto with smooth. Qed.
Lemma entries_steady nt ix st : steady_next (fun k => entries_next k nt ix st).
Proof. apply sim_steady_next. intros k k' Hf. eapply entries_next_sim; eauto with smooth. Qed.
Lemma find_steady {X} (key : list Z -> position -> res X) cmp nt ix : steady_find (fun k => index_find key cmp k nt ix).
Proof. apply sim_steady_find. intros k k' Hf. eapply index_find_sim; eauto with smooth. Qed.
Lemma name_find_steady nt ix name : steady_find (fun k => file_name_find k nt ix name).
Proof. apply sim_steady_find. intros k k' Hf. eapply file_name_find_sim; eauto with smooth. Qed.
Lemma entry_file_steady nt x : steady_call (fun _ => ie_to_file nt x).
Proof. apply sim_steady_call. intros k k' Hf. eapply ie_to_file_sim; eauto with smooth. Qed.
Lemma volume_info_steady nt : steady_call (fun _ => volume_info nt).
Proof. apply sim_steady_call. intros k k' Hf. eapply volume_info_sim; eauto with smooth. Qed.
Lemma volume_name_steady nt : steady_find (fun _ => volume_name nt).
Proof. apply sim_steady_find. intros k k' Hf. eapply volume_name_sim; eauto with smooth. Qed.
Lemma shell_open_steady : steady_call shell_open.
Proof. apply sim_steady_call. intros k k' Hf. eapply shell_open_sim; eauto with smooth. Qed.
Lemma command_steady nt sh c : steady (fun x => re_outcome (snd x) <> OutOfFuel) (fun k => run_command k nt sh c).
Proof.
  eapply steady_sim with (bad := fun p _ => io NK True (re_outcome (snd p))).
  - intros b b' H E. exact (E (io_out _ H)).
  - intros k k' Hf. eapply run_command_calm; eauto with smooth.
Qed.

Lemma ntfs_new_steady d e : same_contents d e -> bytes_ok (d_img d) -> snd (ntfs_new d) = snd (ntfs_new e).
Proof.
  intros H Hb. assert (Hs : steady_call (fun _ => ntfs_new)) by (apply sim_steady_call; intros k k' Hf; eapply ntfs_new_sim; eauto with smooth).
  specialize (Hs d e O O H). pose proof (mpost_ends _ _ _ (ntfs_new_calm d Hb)) as E1.
  assert (Hb' : bytes_ok (d_img e)) by (destruct H as (_ & _ & <- & _); exact Hb). pose proof (mpost_ends _ _ _ (ntfs_new_calm e Hb')) as E2.
  destruct (ntfs_new d) as [d1 x], (ntfs_new e) as [e1 y]. now apply Hs.
Qed.
Lemma ntfs_file_steady nt n d e : opened nt -> 0 <= n -> same_contents d e -> bytes_ok (d_img d) -> snd (ntfs_file nt n d) = snd (ntfs_file nt n e).
Proof.
  intros Hn Hp H Hb. assert (Hb' : bytes_ok (d_img e)) by (destruct H as (_ & _ & <- & _); exact Hb).
  pose proof (file_by_number_ends nt n d Hn Hp Hb) as E1. pose proof (file_by_number_ends nt n e Hn Hp Hb') as E2.
  pose proof (file_steady nt n d e O O H) as Hs. destruct (ntfs_file nt n d) as [d1 x], (ntfs_file nt n e) as [e1 y]. now apply Hs.
Qed.

(** Histories. *)
Lemma history_steady ops : forall v d e k k', same_contents d e -> Forall op_ended (reader_run (av_read k) (av_seek k) v d ops) -> Forall op_ended (reader_run (av_read k') (av_seek k') v e ops) ->
  reader_run (av_read k) (av_seek k) v d ops = reader_run (av_read k') (av_seek k') v e ops.
Proof.
  induction ops as [|[n|p] ops IH]; intros v d e k k' H; cbn [reader_run reader_step]; [reflexivity|..].
  - pose proof (read_steady v n d e k k' H) as Hs. destruct (av_read k v n d) as [d1 [v1 x]], (av_read k' v n e) as [e1 [v2 y]]. cbn [snd] in Hs. intros F1 F2.
    apply Forall_cons_iff in F1 as ((A1 & _) & F1), F2 as ((A2 & _) & F2). destruct Hs as ([= -> ->] & Hs); [congruence|congruence|]. f_equal. now apply IH.
  - pose proof (seek_steady v p d e k k' H) as Hs. destruct (av_seek k v p d) as [d1 [v1 x]], (av_seek k' v p e) as [e1 [v2 y]]. cbn [snd] in Hs. intros F1 F2.
    apply Forall_cons_iff in F1 as ((_ & A1) & F1), F2 as ((_ & A2) & F2). destruct Hs as ([= -> ->] & Hs); [congruence|congruence|]. f_equal. now apply IH.
Qed.
Lemma commands_steady nt cs : forall sh d e k k', same_contents d e -> Forall (fun r => re_outcome (fst r) <> OutOfFuel) (run_commands k nt sh cs d) ->
  Forall (fun r => re_outcome (fst r) <> OutOfFuel) (run_commands k' nt sh cs e) -> run_commands k nt sh cs d = run_commands k' nt sh cs e.
Proof.
  induction cs as [|c cs IH]; intros sh d e k k' H; cbn [run_commands]; [reflexivity|].
  pose proof (command_steady nt sh c d e k k' H) as Hs. destruct (run_command k nt sh c d) as [d1 [sh1 r]], (run_command k' nt sh c e) as [e1 [sh2 r2]]. cbn [snd] in Hs. intros F1 F2.
  apply Forall_cons_iff in F1 as (A1 & F1), F2 as (A2 & F2). destruct Hs as ([= -> ->] & Hs); [exact A1|exact A2|]. f_equal. destruct (re_outcome r2); auto.
Qed.
Lemma session_steady cs d e k k' : same_contents d e -> session_ended (session k cs d) -> session_ended (session k' cs e) -> session k cs d = session k' cs e.
Proof.
  intros H. unfold session. pose proof (shell_open_steady d e k k' H) as Hs.
  destruct (shell_open k d) as [d1 x] eqn:Ex, (shell_open k' e) as [e1 y] eqn:Ey. intros (A1 & A2) (B1 & B2).
  destruct Hs as (-> & Hs); [destruct x as [[? ?]| | |]; congruence|destruct y as [[? ?]| | |]; congruence|]. destruct y as [[nt sh]|x| |]; try reflexivity.
  f_equal. apply commands_steady; auto.
Qed.
Lemma direct_session_steady cs d e : Forall direct cs -> bytes_ok (d_img d) -> same_contents d e ->
  exists N x, session_ended x /\ forall k, (N <= k)%nat -> session k cs d = x /\ session k cs e = x.
Proof.
  intros Hc Hb H. assert (Hb' : bytes_ok (d_img e)) by (destruct H as (_ & _ & <- & _); exact Hb).
  destruct (session_settles cs d Hc Hb) as (N & x & Hx & H1). destruct (session_settles cs e Hc Hb') as (M & y & Hy & H2).
  exists (N + M)%nat, x. split; [exact Hx|]. intros k Hk. rewrite H1, H2 by lia. split; [reflexivity|]. symmetry.
  rewrite <- (H1 (N + M)%nat) in * by lia. rewrite <- (H2 (N + M)%nat) in * by lia. exact (session_steady cs d e (N + M) (N + M) H Hx Hy).
Qed.
