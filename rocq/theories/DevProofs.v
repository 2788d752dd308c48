(** * Lemmas about the device. *)
From Verif Require Import Base Dev BaseProofs.

Lemma from_pos_nonneg p img : 0 <= p -> from_pos p img = zdrop p img.
Proof. intros H. unfold from_pos. destruct (p <? 0) eqn:E; [lia|reflexivity]. Qed.
Lemma zlen_from_pos p img : zlen (from_pos p img) <= zlen img.
Proof. unfold from_pos. destruct (p <? 0); [rewrite zlen_nil; apply zlen_nonneg|]. rewrite zlen_zdrop. pose proof (zlen_nonneg img). lia. Qed.

Lemma dev_seek_img n d d' r : dev_seek n d = (d', r) -> d_img d' = d_img d /\ d_reads d' = d_reads d.
Proof. unfold dev_seek. destruct (d_seeks d) as [|[]]; intros [= <- <-]; auto. Qed.

Lemma dev_seek_faultless n d : faultless d ->
  exists d', dev_seek n d = (d', Ok tt) /\ faultless d' /\ d_pos d' = n /\ d_img d' = d_img d /\ d_reads d' = d_reads d.
Proof.
  intros [H1 H2]. unfold dev_seek. destruct (d_seeks d) as [|s t] eqn:E.
  - eexists; repeat split; eauto.
  - inversion H2; subst. unfold seek_ok in H3; subst. eexists; repeat split; eauto.
Qed.

(** One device read from inside the image gives a nonempty prefix or (if faults are scheduled) an error. *)
Lemma dev_read_cases n d d' r : 0 < n -> 0 <= d_pos d -> d_pos d + n <= zlen (d_img d) ->
  dev_read n d = (d', r) ->
  d_img d' = d_img d /\ d_seeks d' = d_seeks d /\ d_reads d' = tl (d_reads d) /\
  ((exists j, 1 <= j <= n /\ r = Ok (ztake j (zdrop (d_pos d) (d_img d))) /\ d_pos d' = d_pos d + j /\
      (d_reads d = [] -> j = n))
   \/ (exists k t, r = Err (EIo k) /\ d_reads d = RErr k :: t)).
Proof.
  intros. unfold dev_read in H2. rewrite from_pos_nonneg in H2 by lia. destruct (d_reads d) as [|[k|k] t] eqn:E; injection H2 as <- <-; cbn.
  - repeat split; auto. left. exists n. repeat split; try lia. rewrite zlen_ztake, zlen_zdrop. lia.
  - repeat split; auto. left. exists (Z.min (Z.of_nat k + 1) n). repeat split; try lia.
    + now rewrite ztake_ztake.
    + rewrite ztake_ztake, zlen_ztake, zlen_zdrop. lia.
    + discriminate.
  - repeat split; auto. right. eauto.
Qed.

Lemma faultless_no_err d k t : faultless d -> d_reads d = RErr k :: t -> False.
Proof. intros [H _] E. rewrite E in H. inversion H; subst. destruct H2. Qed.

Lemma faultless_tl d d' : faultless d -> d_reads d' = tl (d_reads d) -> d_seeks d' = d_seeks d -> faultless d'.
Proof.
  intros [H1 H2] E1 E2. split; [|now rewrite E2]. rewrite E1. destruct (d_reads d); cbn; auto. now inversion H1.
Qed.

(** [dev_read_exact]: exact bytes if available, [UnexpectedEof] otherwise, and never out of fuel. *)
Lemma dev_read_exact_loop_ok fuel : forall n acc d,
  faultless d -> 0 <= d_pos d -> (length (d_reads d) + 2 <= fuel)%nat -> d_pos d + n <= zlen (d_img d) -> 0 <= n ->
  exists d', dev_read_exact_loop fuel n acc d = (d', Ok (acc ++ ztake n (zdrop (d_pos d) (d_img d)))) /\
             faultless d' /\ d_img d' = d_img d /\ d_pos d' = d_pos d + n /\ (length (d_reads d') <= length (d_reads d))%nat.
Proof.
  induction fuel; intros n acc d Hf Hp Hl Hn H0; [lia|]. cbn [dev_read_exact_loop].
  destruct (n <=? 0) eqn:E.
  - assert (n = 0) by lia; subst. rewrite ztake_0, app_nil_r by lia. eexists; repeat split; eauto; try lia; apply Hf.
  - destruct (dev_read n d) as [d1 r] eqn:Er. pose proof Er as Er'. apply dev_read_cases in Er; try lia.
    destruct Er as (Ei & Es & Ed & [(j & Hj & -> & Hpos & Hfull)|(k & t & -> & Hk)]).
    2: { exfalso; eauto using faultless_no_err. }
    assert (Hz : zlen (ztake j (zdrop (d_pos d) (d_img d))) = j) by (rewrite zlen_ztake, zlen_zdrop; lia).
    destruct (ztake j (zdrop (d_pos d) (d_img d))) as [|b bs] eqn:Eb; [rewrite zlen_nil in Hz; lia|].
    rewrite Hz. rewrite <- Eb in *.
    assert (Hsum : acc ++ ztake n (zdrop (d_pos d) (d_img d)) =
       (acc ++ ztake j (zdrop (d_pos d) (d_img d))) ++ ztake (n - j) (zdrop (d_pos d1) (d_img d1))).
    { rewrite Ei, Hpos. replace n with (j + (n - j)) at 1 by lia. rewrite ztake_split by lia.
      rewrite zdrop_zdrop by lia. rewrite app_assoc. now rewrite (Z.add_comm j (d_pos d)). }
    assert (Hf1 : faultless d1) by (eapply faultless_tl; eauto).
    destruct (d_reads d) as [|ev evs] eqn:Ev; rewrite ?Ev in *.
    + specialize (Hfull eq_refl). subst j. replace (n - n) with 0 in * by lia.
      destruct fuel; [cbn in Hl; lia|]. cbn [dev_read_exact_loop]. rewrite Z.leb_refl.
      rewrite Hsum, (ztake_0 0), app_nil_r by lia. eexists; repeat split; eauto; try apply Hf1; try lia. rewrite Ed; cbn; lia.
    + edestruct (IHfuel (n - j) (acc ++ ztake j (zdrop (d_pos d) (d_img d))) d1) as (d' & H' & ? & ? & ? & ?); try lia; eauto.
      { rewrite Ed. cbn [length tl] in *. lia. }
      { rewrite Ei, Hpos. lia. }
      rewrite H'. rewrite Hsum. eexists; repeat split; eauto; try apply H; try congruence; try lia.
      rewrite Ed in H3. cbn [tl length] in *. lia.
Qed.

Lemma dev_read_exact_ok n d : faultless d -> 0 <= d_pos d -> d_pos d + n <= zlen (d_img d) -> 0 <= n ->
  exists d', dev_read_exact n d = (d', Ok (ztake n (zdrop (d_pos d) (d_img d)))) /\
             faultless d' /\ d_img d' = d_img d /\ d_pos d' = d_pos d + n /\ (length (d_reads d') <= length (d_reads d))%nat.
Proof. intros. eapply (dev_read_exact_loop_ok _ n []); eauto. Qed.

Lemma dev_read_short n d d' r : 0 < n -> 0 <= d_pos d -> faultless d -> dev_read n d = (d', r) ->
  exists j, 0 <= j <= n /\ r = Ok (ztake j (zdrop (d_pos d) (d_img d))) /\ d_img d' = d_img d /\ faultless d' /\
   d_reads d' = tl (d_reads d) /\
   d_pos d' = d_pos d + zlen (ztake j (zdrop (d_pos d) (d_img d))) /\ 1 <= j /\ (d_reads d = [] -> j = n).
Proof.
  intros Hn Hp Hf H. unfold dev_read in H. rewrite from_pos_nonneg in H by lia. destruct (d_reads d) as [|[k|k] t] eqn:E; injection H as <- <-; cbn.
  - exists n. repeat split; try lia; try apply Hf; auto. all: try constructor.
  - exists (Z.min (Z.of_nat k + 1) n). rewrite ztake_ztake. repeat split; try lia; try apply Hf.
    + destruct Hf as [Hf _]. rewrite E in Hf. now inversion Hf.
    + discriminate.
  - exfalso; eauto using faultless_no_err.
Qed.

Lemma dev_read_exact_loop_eof fuel : forall n acc d,
  faultless d -> 0 <= d_pos d -> (length (d_reads d) + 2 <= fuel)%nat -> zlen (d_img d) < d_pos d + n -> 0 < n ->
  exists d', dev_read_exact_loop fuel n acc d = (d', Err (EIo UnexpectedEof)) /\
             faultless d' /\ d_img d' = d_img d /\ (length (d_reads d') <= length (d_reads d))%nat.
Proof.
  induction fuel; intros n acc d Hf Hp Hl Hn H0; [lia|]. cbn [dev_read_exact_loop].
  destruct (n <=? 0) eqn:E; [lia|].
  destruct (dev_read n d) as [d1 r] eqn:Er.
  destruct (dev_read_short _ _ _ _ H0 Hp Hf Er) as (j & Hj & -> & Ei & Hf1 & Ed & Hpos & Hj1 & Hfull).
  destruct (ztake j (zdrop (d_pos d) (d_img d))) as [|b bs] eqn:Eb.
  - eexists; repeat split; eauto; try apply Hf1. rewrite Ed. destruct (d_reads d); cbn; lia.
  - rewrite <- Eb in *. assert (Hz : 0 < zlen (ztake j (zdrop (d_pos d) (d_img d))) <= j).
    { pose proof (zlen_ztake j (zdrop (d_pos d) (d_img d))). rewrite Eb in *. rewrite zlen_cons in *.
      pose proof (zlen_nonneg bs). lia. }
    assert (Hlt : zlen (ztake j (zdrop (d_pos d) (d_img d))) < n) by (rewrite zlen_ztake, zlen_zdrop; lia).
    destruct (d_reads d) as [|ev evs] eqn:Ev; rewrite ?Ev in *.
    + specialize (Hfull eq_refl). subst j. destruct fuel; [cbn in Hl; lia|].
      cbn [dev_read_exact_loop]. destruct (n - zlen (ztake n (zdrop (d_pos d) (d_img d))) <=? 0) eqn:E2; [lia|].
      unfold dev_read. rewrite Ed. cbn [tl]. rewrite from_pos_nonneg by (pose proof (zlen_nonneg (ztake n (zdrop (d_pos d) (d_img d)))); lia). rewrite (zdrop_all (d_pos d1)). { rewrite ztake_nil. eexists; split; [reflexivity|]. split; [|now split; cbn]. split; cbn; [constructor|apply Hf1]. }
      rewrite Ei, Hpos, zlen_ztake, zlen_zdrop. lia.
    + edestruct (IHfuel (n - zlen (ztake j (zdrop (d_pos d) (d_img d)))) (acc ++ ztake j (zdrop (d_pos d) (d_img d))) d1)
        as (d' & H' & ? & ? & ?); try lia; eauto.
      { rewrite Ed. cbn [length tl] in *. lia. }
      { rewrite Ei, Hpos. lia. }
      rewrite H'. eexists; repeat split; eauto; try apply H; try congruence. rewrite Ed in *. cbn [tl length] in *. lia.
Qed.

Lemma dev_read_exact_eof n d : faultless d -> 0 <= d_pos d -> zlen (d_img d) < d_pos d + n -> 0 < n ->
  exists d', dev_read_exact n d = (d', Err (EIo UnexpectedEof)) /\ faultless d' /\ d_img d' = d_img d /\
     (length (d_reads d') <= length (d_reads d))%nat.
Proof. intros. eapply dev_read_exact_loop_eof; eauto. Qed.

(** Fuel is never exhausted, whatever the schedule. *)
Lemma dev_read_exact_loop_fuel fuel : forall n acc d, 0 <= d_pos d ->
  (length (d_reads d) + 2 <= fuel)%nat -> snd (dev_read_exact_loop fuel n acc d) <> OutOfFuel /\
   snd (dev_read_exact_loop fuel n acc d) <> Panic.
Proof.
  induction fuel; intros n acc d Hp Hl; [lia|]. cbn [dev_read_exact_loop].
  destruct (n <=? 0) eqn:E; [cbn; split; discriminate|].
  unfold dev_read. rewrite (from_pos_nonneg (d_pos d)) by lia. destruct (d_reads d) as [|[k|k] t] eqn:Ev; rewrite ?Ev in *.
  - destruct (ztake n (zdrop (d_pos d) (d_img d))) as [|b bs] eqn:Eb; [cbn; split; discriminate|].
    destruct fuel; [cbn in Hl; lia|]. cbn [dev_read_exact_loop].
    destruct (n - zlen (b :: bs) <=? 0) eqn:E2; [cbn; split; discriminate|]. unfold dev_read; cbn [d_reads d_pos d_img]. rewrite from_pos_nonneg by (pose proof (zlen_nonneg (b :: bs)); lia).
    rewrite (zdrop_all (d_pos d + zlen (b :: bs))); [cbn; split; discriminate|].
    assert (H1 : zlen (ztake n (zdrop (d_pos d) (d_img d))) = zlen (b :: bs)) by now rewrite Eb.
    rewrite zlen_ztake, zlen_zdrop in *. rewrite zlen_cons in *. pose proof (zlen_nonneg bs). lia.
  - destruct (ztake _ (ztake n _)) as [|b bs] eqn:Eb; [cbn; split; discriminate|].
    apply IHfuel; cbn [d_reads d_pos length] in *; [pose proof (zlen_nonneg (b :: bs))|]; lia.
  - destruct k; try (cbn; split; discriminate). apply IHfuel; cbn [d_reads length] in *; auto; lia.
Qed.

Lemma dev_read_exact_fuel n d : 0 <= d_pos d -> snd (dev_read_exact n d) <> OutOfFuel /\ snd (dev_read_exact n d) <> Panic.
Proof. intros; apply dev_read_exact_loop_fuel; auto. Qed.
