(** * Refinement proof for readers that consist of data runs. *)
From Verif Require Import Base Dev Types DataRuns Stream Spec BaseProofs DevProofs.

(** Bytes of a run on the image. *)
Definition run_bytes (img : list Z) (r : run) : list Z :=
  match r_pos r with
  | Some p => slice img p (p + r_alloc r)
  | None => zrepeat 0 (r_alloc r)
  end.

Definition run_ok (img : list Z) (r : run) : Prop :=
  r_sp r = 0 /\ 0 < r_alloc r <= U64_MAX /\
  match r_pos r with Some p => 0 <= p /\ p + r_alloc r <= zlen img | None => True end.

Fixpoint runs_size (l : list run) : Z :=
  match l with [] => 0 | r :: t => r_alloc r + runs_size t end.

Definition cat (img : list Z) (l : list run) : list Z := concat (map (run_bytes img) l).

Lemma runs_size_app a b : runs_size (a ++ b) = runs_size a + runs_size b.
Proof. induction a; cbn [runs_size app]; lia. Qed.

Lemma runs_size_nonneg img l : Forall (run_ok img) l -> 0 <= runs_size l.
Proof. induction 1; cbn [runs_size]; [lia|]. destruct H as (_ & ? & _). lia. Qed.

Lemma run_bytes_len img r : run_ok img r -> zlen (run_bytes img r) = r_alloc r.
Proof.
  intros (_ & Ha & Hp). unfold run_bytes. destruct (r_pos r).
  - rewrite slice_len by lia. lia.
  - rewrite zlen_zrepeat. lia.
Qed.

Lemma cat_len img l : Forall (run_ok img) l -> zlen (cat img l) = runs_size l.
Proof.
  induction 1; [reflexivity|]. unfold cat in *. cbn [map concat runs_size]. rewrite zlen_app, run_bytes_len, IHForall; auto.
Qed.

Lemma cat_app img a b : cat img (a ++ b) = cat img a ++ cat img b.
Proof. unfold cat. now rewrite map_app, concat_app. Qed.

Lemma cat_at img done r rest sp j :
  Forall (run_ok img) (done ++ r :: rest) -> 0 <= sp -> 0 <= j -> sp + j <= r_alloc r ->
  ztake j (zdrop (runs_size done + sp) (cat img (done ++ r :: rest))) = ztake j (zdrop sp (run_bytes img r)).
Proof.
  intros H Hs Hj Hb. apply Forall_app in H as (H1 & H2). inversion H2; subst.
  rewrite cat_app, zdrop_app, cat_len by auto. pose proof (runs_size_nonneg _ _ H1).
  rewrite (zdrop_all (runs_size done + sp)) by (rewrite cat_len; auto; lia). cbn [app].
  replace (runs_size done + sp - runs_size done) with sp by lia.
  unfold cat. cbn [map concat]. rewrite zdrop_app, ztake_app, run_bytes_len by auto.
  rewrite zlen_zdrop, run_bytes_len by auto.
  rewrite (ztake_0 (j - _)) by lia. now rewrite app_nil_r.
Qed.

Lemma ss_eta x a b c : ss_run x = a -> ss_pos x = b -> ss_size x = c -> mkSS a b c = x.
Proof. destruct x; cbn; intros; now subst. Qed.

Lemma hd_facts img l : Forall (run_ok img) l ->
  (l = [] /\ hd_error l = None /\ tl l = []) \/ exists r t, l = r :: t /\ hd_error l = Some r /\ tl l = t /\ run_ok img r.
Proof. destruct 1; [left|right]; eauto 10. Qed.

Section Refinement.
  Context {S : Type} (o : stream_ops S) (img : list Z) (size : Z) (runs : list run) (strict : bool).
  (** [Rest s l]: the data run source inside [s] still has to deliver the runs [l]. *)
  Context (Rest : S -> list run -> Prop).

  Definition good (d : dev) : Prop :=
    d_img d = img /\ (strict = true -> faultless d).

  Definition content := ztake size (cat img runs).

  Context (Hset : forall s x, so_ss o (so_set o s x) = x).
  Context (Hrest_set : forall s l x, Rest s l -> Rest (so_set o s x) l).
  Context (Hadv_cons : forall s r l d, Rest s (r :: l) -> good d -> exists d' s',
    so_advance o s d = (d', (s', Ok true)) /\ Rest s' l /\
    so_ss o s' = mkSS (Some r) (ss_pos (so_ss o s)) (ss_size (so_ss o s)) /\ good d' /\
    (length (d_reads d') <= length (d_reads d))%nat).
  Context (Hadv_nil : forall s d, Rest s [] -> good d -> exists d' s',
    so_advance o s d = (d', (s', Ok false)) /\ Rest s' [] /\ so_ss o s' = so_ss o s /\ good d' /\
    (length (d_reads d') <= length (d_reads d))%nat).
  Context (Hrewind : forall s l d, Rest s l -> good d -> ss_size (so_ss o s) = size -> exists d' s',
    so_rewind o s d = (d', (s', Ok tt)) /\ Rest s' (tl runs) /\
    so_ss o s' = mkSS (hd_error runs) 0 size /\ good d' /\
    (length (d_reads d') <= length (d_reads d))%nat).
  Context (Himg : zlen img <= TWO64) (Hsize : 0 <= size <= U64_MAX) (Hruns : Forall (run_ok img) runs).

  Definition pos (s : S) := ss_pos (so_ss o s).

  (** The current run is one of [runs], followed by [rest], and the reader is aligned at virtual position [v]. *)
  Inductive at_pos (v : Z) (s : S) : list run -> Prop :=
  | AtRun done r rest sp :
      runs = done ++ r :: rest ->
      ss_run (so_ss o s) = Some (mkRun (r_pos r) (r_alloc r) sp) -> 0 <= sp <= r_alloc r ->
      v = runs_size done + sp -> at_pos v s rest
  | AtEnd : ss_run (so_ss o s) = None -> runs_size runs <= v -> at_pos v s [].

  Definition run_sane (x : option run) : Prop :=
    match x with Some r => 0 <= r_sp r <= r_alloc r /\ r_alloc r <= U64_MAX | None => True end.

  (** Reader invariant. *)
  Record inv_at (s : S) (rest : list run) : Prop := mkInv {
    inv_size : ss_size (so_ss o s) = size;
    inv_pos : 0 <= pos s <= U64_MAX;
    inv_rest : Rest s rest;
    inv_suffix : exists pre, runs = pre ++ rest;
    inv_sane : run_sane (ss_run (so_ss o s));
    inv_at_pos : size <= pos s \/ at_pos (pos s) s rest
  }.
  Definition inv (s : S) : Prop := exists rest, inv_at s rest.

  Lemma good_seek n d d' r : good d -> dev_seek n d = (d', r) -> good d'.
  Proof.
    intros [H1 H2] E. pose proof (dev_seek_img _ _ _ _ E) as [Ei _]. split; [congruence|].
    intros Hs. destruct (dev_seek_faultless n d (H2 Hs)) as (d2 & E2 & ? & _). congruence.
  Qed.

  Definition weight (s : S) : nat :=
    match ss_run (so_ss o s) with
    | Some r => if (r_sp r <? r_alloc r) && (pos s <? size) then 2 else 1
    | None => 1
    end.

  Lemma content_len : zlen content = Z.min size (runs_size runs).
  Proof. unfold content. rewrite zlen_ztake, cat_len by auto. pose proof (runs_size_nonneg _ _ Hruns). lia. Qed.

  (** One call of [read_data_run] in an aligned state inside a run. *)
  Lemma read_data_run_step s d done r rest sp n :
    good d -> runs = done ++ r :: rest -> Rest s rest ->
    ss_run (so_ss o s) = Some (mkRun (r_pos r) (r_alloc r) sp) -> 0 <= sp < r_alloc r ->
    pos s = runs_size done + sp -> ss_size (so_ss o s) = size -> pos s < size -> 0 < n ->
    exists d' ss' out,
      ss_read_data_run (so_ss o s) n d = (d', (ss', out)) /\ good d' /\
      ((exists j, 1 <= j <= Z.min n (size - pos s) /\ out = Ok (ztake j (zdrop (pos s) content)) /\ sp + j <= r_alloc r /\
          ss' = mkSS (Some (mkRun (r_pos r) (r_alloc r) (sp + j))) (pos s + j) size /\
          (length (d_reads d') <= length (d_reads d))%nat /\
          ((length (d_reads d') < length (d_reads d))%nat \/ sp + j = r_alloc r \/ pos s + j = size \/ j = n))
       \/ (strict = false /\ (exists k, out = Err (EIo k)) /\ ss' = so_ss o s /\ (length (d_reads d') <= length (d_reads d))%nat)).
  Proof.
    intros Hg Hr Hrest Hrun Hsp Hpos Hss Hlt Hn.
    assert (Hok : run_ok img r) by (rewrite Hr in Hruns; apply Forall_app in Hruns as (_ & H); now inversion H).
    assert (Hc : forall j, 0 <= j -> sp + j <= r_alloc r -> pos s + j <= size ->
       ztake j (zdrop (pos s) content) = ztake j (zdrop sp (run_bytes img r))).
    { intros j Hj Hj2 Hj3. unfold content. rewrite zdrop_ztake, ztake_ztake by (rewrite Hpos;
        rewrite Hr in Hruns; apply Forall_app in Hruns as (H4 & _); pose proof (runs_size_nonneg _ _ H4); lia).
      rewrite Z.min_l by lia. rewrite Hpos, Hr. apply cat_at; [now rewrite <- Hr|lia..]. }
    unfold ss_read_data_run. rewrite Hrun. cbn [r_alloc r_sp]. fold (pos s). rewrite Hss.
    destruct (r_alloc r <=? sp) eqn:E1; [lia|].
    replace (Z.max 0 (size - pos s)) with (size - pos s) by lia.
    destruct (size - pos s =? 0) eqn:E2; [lia|].
    unfold run_read, run_remaining. cbn [r_alloc r_sp r_pos].
    replace (Z.max 0 (r_alloc r - sp)) with (r_alloc r - sp) by lia.
    destruct (r_alloc r - sp =? 0) eqn:E3; [lia|].
    set (k := Z.min (Z.min n (size - pos s)) (r_alloc r - sp)).
    assert (Hk : 1 <= k) by (subst k; lia).
    destruct Hok as (Hf0 & Hal & Hp). destruct (r_pos r) as [p|] eqn:Ep.
    - destruct (U64_MAX <? p + sp) eqn:E4; [unfold U64_MAX, TWO64 in *; lia|].
      destruct (dev_seek (p + sp) d) as [d1 x] eqn:Es.
      pose proof (good_seek _ _ _ _ Hg Es) as Hg1. pose proof (dev_seek_img _ _ _ _ Es) as [Ei Erd].
      assert (Hx : (x = Ok tt /\ d_pos d1 = p + sp) \/ (strict = false /\ exists e, x = Err (EIo e))).
      { unfold dev_seek in Es. destruct (d_seeks d) as [|[e|] t] eqn:Et; injection Es as <- <-; auto.
        right. split; [|eauto]. apply not_true_is_false; intros Hst. destruct Hg as [_ Hg]. destruct (Hg Hst) as [_ Hs].
        rewrite Et in Hs. inversion Hs; subst. discriminate. }
      destruct Hx as [[-> Hd1]|(Hst & e & ->)].
      2: { do 3 eexists; split; [reflexivity|]. split; auto. right. split; [auto|]. split; [eauto|]. split; [|rewrite Erd; auto]. apply ss_eta; auto; congruence. }
      destruct (dev_read k d1) as [d2 y] eqn:Er2.
      pose proof Hg1 as [Hi1 Hf1].
      apply dev_read_cases in Er2; [|lia..| |].
      2: { rewrite Hd1; lia. } 2: { rewrite Hd1, Hi1. subst k; lia. }
      destruct Er2 as (Ei2 & Es2 & Ed2 & Hcase).
      assert (Hg2 : good d2).
      { split; [congruence|]. intros Hs. eapply faultless_tl; [apply Hf1; auto| |]; auto. }
      destruct Hcase as [(j & Hj & -> & Hpos2 & Hfull)|(kd & t & -> & Hk2)].
      + do 3 eexists; split; [reflexivity|]. split; auto. left. exists j.
        assert (Hzl : zlen (ztake j (zdrop (d_pos d1) (d_img d1))) = j).
        { rewrite zlen_ztake, zlen_zdrop, Hd1, Hi1. subst k. lia. }
        rewrite Hzl. repeat split; try (subst k; lia).
        * rewrite Hc by (subst k; lia). f_equal. rewrite Hd1, Hi1. unfold run_bytes. rewrite Ep. unfold slice.
          rewrite zdrop_ztake, ztake_ztake, zdrop_zdrop by lia. rewrite Z.min_l by (subst k; lia).
          do 2 f_equal. lia.
        * rewrite Ed2, Erd. destruct (d_reads d); cbn; lia.
        * rewrite Ed2, Erd. destruct (d_reads d) eqn:Edd; [|cbn; left; lia]. right.
          rewrite Erd in Hfull. specialize (Hfull eq_refl). subst k; lia.
      + do 3 eexists; split; [reflexivity|]. split; auto. right. split; [|split; [eauto|split]].
        * apply not_true_is_false; intros Hst. eapply (faultless_no_err d1); eauto.
        * apply ss_eta; auto; congruence.
        * rewrite Ed2, Erd. destruct (d_reads d); cbn; lia.
    - do 3 eexists; split; [reflexivity|]. split; auto. left. exists k.
      rewrite zlen_zrepeat. replace (Z.max 0 k) with k by lia. repeat split; try (subst k; lia).
      rewrite Hc by (subst k; lia). f_equal. unfold run_bytes. rewrite Ep.
      rewrite zdrop_zrepeat, ztake_zrepeat by lia. f_equal. subst k; lia.
  Qed.

  (** [read_data_run] does nothing when there is nothing to read at this run. *)
  Lemma read_data_run_none s n d :
    (ss_run (so_ss o s) = None \/ (exists r, ss_run (so_ss o s) = Some r /\ r_alloc r <= r_sp r) \/
     ss_size (so_ss o s) <= pos s) ->
    ss_read_data_run (so_ss o s) n d = (d, (so_ss o s, Ok [])).
  Proof.
    unfold ss_read_data_run, pos. intros [-> | [(r & -> & H) | H]]; auto.
    - destruct (r_alloc r <=? r_sp r) eqn:E; [auto|lia].
    - destruct (ss_run (so_ss o s)) as [r|]; auto. destruct (r_alloc r <=? r_sp r); auto.
      destruct (Z.max 0 _ =? 0) eqn:E; [auto|lia].
  Qed.

  Lemma run_sane_fresh r : In r runs -> run_sane (Some r).
  Proof. intros H. rewrite Forall_forall in Hruns. destruct (Hruns _ H) as (? & ? & _). cbn. lia. Qed.

  Lemma mkRun_eta r : run_ok img r -> r = mkRun (r_pos r) (r_alloc r) 0.
  Proof. destruct r; intros (H & _); cbn in *; now subst. Qed.

  Definition weight_bound s : (weight s <= 2)%nat.
  Proof. unfold weight. destruct (ss_run _); [destruct (_ && _)|]; lia. Qed.

  Lemma content_beyond p : size <= p \/ runs_size runs <= p -> zdrop p content = [].
  Proof. intros. apply zdrop_all. rewrite content_len. lia. Qed.

  (** The read loop delivers exactly the next bytes. *)
  Lemma read_loop_refines fuel : forall s rest n acc d,
    inv_at s rest -> good d -> zlen acc <= n ->
    (length (d_reads d) + 2 * length rest + weight s <= fuel)%nat ->
    exists d' s' out, stream_read_loop o fuel s n acc d = (d', (s', out)) /\ good d' /\ inv s' /\
      (length (d_reads d') <= length (d_reads d))%nat /\
      ((out = Ok (acc ++ ztake (n - zlen acc) (zdrop (pos s) content)) /\
        pos s' = pos s + zlen (ztake (n - zlen acc) (zdrop (pos s) content)))
       \/ (strict = false /\ (exists k, out = Err (EIo k)) /\
           pos s <= pos s' <= pos s + zlen (ztake (n - zlen acc) (zdrop (pos s) content)))).
  Proof.
    induction fuel as [|fuel IH]; intros s rest n acc d Hi Hg Hacc Hfuel;
      cbn [stream_read_loop]; (destruct (n <=? zlen acc) eqn:En;
      [assert (n = zlen acc) by lia; subst n; rewrite Z.sub_diag, ztake_0, app_nil_r by lia;
       do 3 eexists; split; [reflexivity|]; split; [auto|]; split; [exists rest; auto|]; split; [auto|]; left; split; [auto|];
       rewrite zlen_nil; lia|]).
    { exfalso. unfold weight in Hfuel. destruct (ss_run _); [destruct (_ && _)|]; lia. }
    assert (Hcase : (exists done r sp, runs = done ++ r :: rest /\
        ss_run (so_ss o s) = Some (mkRun (r_pos r) (r_alloc r) sp) /\ 0 <= sp < r_alloc r /\
        pos s = runs_size done + sp /\ pos s < size) \/
       ((ss_run (so_ss o s) = None \/ (exists r, ss_run (so_ss o s) = Some r /\ r_alloc r <= r_sp r) \/
         ss_size (so_ss o s) <= pos s))).
    { destruct Hi as [H1 H2 H3 H4 H5 H6]. destruct (Z_le_gt_dec size (pos s)) as [Hle|Hgt].
      { right; right; right. lia. }
      destruct H6 as [H6|H6]; [lia|]. inversion H6; subst.
      - destruct (Z_lt_le_dec sp (r_alloc r)).
        + left. exists done, r, sp. repeat split; auto; lia.
        + right; right; left. eexists; split; [eauto|]. cbn; lia.
      - right; left; auto. }
    destruct Hcase as [(done & r & sp & Hr & Hrun & Hsp & Hpos & Hlt)|Hnone].
    - edestruct (read_data_run_step s d done r rest sp (n - zlen acc)) as (d1 & ss1 & out1 & E1 & Hg1 & Hout);
        eauto using inv_rest, inv_size; try lia. rewrite E1.
      assert (Hpos0 : 0 <= pos s) by apply Hi.
      destruct Hout as [(j & Hj & -> & Hjr & -> & Hlen & Hprog)|(Hst & (k & ->) & -> & Hlen)].
      + assert (Hz : zlen (ztake j (zdrop (pos s) content)) = j).
        { rewrite zlen_ztake, zlen_zdrop, content_len. rewrite Hr, runs_size_app. cbn [runs_size].
          rewrite Hr in Hruns; apply Forall_app in Hruns as (H4 & H5). pose proof (Forall_inv_tail H5) as H6.
          pose proof (runs_size_nonneg _ _ H4). pose proof (runs_size_nonneg _ _ H6). lia. }
        destruct (ztake j (zdrop (pos s) content)) as [|b bs] eqn:Eb; [rewrite zlen_nil in Hz; lia|].
        rewrite <- Eb in *. clear Eb b bs.
        set (s1 := so_set o s _).
        assert (Hp1 : pos s1 = pos s + j) by (unfold pos, s1; now rewrite Hset).
        assert (Hss1 : ss_run (so_ss o s1) = Some (mkRun (r_pos r) (r_alloc r) (sp + j))) by (unfold s1; now rewrite Hset).
        assert (Hi1 : inv_at s1 rest).
        { destruct Hi as [H1 H2 H3 H4 H5 H6]. split.
          - unfold s1. rewrite Hset. reflexivity.
          - rewrite Hp1. lia.
          - unfold s1. auto.
          - auto.
          - rewrite Hss1. cbn. rewrite Hrun in H5. cbn in H5. lia.
          - right. rewrite Hp1. eapply AtRun; eauto; lia. }
        assert (Hsplit : ztake (n - zlen acc) (zdrop (pos s) content) =
           ztake j (zdrop (pos s) content) ++ ztake (n - (zlen acc + j)) (zdrop (pos s1) content)).
        { replace (n - zlen acc) with (j + (n - (zlen acc + j))) by lia.
          rewrite ztake_split, zdrop_zdrop by lia. now rewrite Hp1, (Z.add_comm j). }
        assert (Hz2 : zlen (acc ++ ztake j (zdrop (pos s) content)) = zlen acc + j) by (rewrite zlen_app; lia).
        destruct (Z.eq_dec j (n - zlen acc)) as [Hjn|Hjn].
        * (* buffer full *)
          assert (Hstop : stream_read_loop o fuel s1 n (acc ++ ztake j (zdrop (pos s) content)) d1 =
            (d1, (s1, Ok (acc ++ ztake j (zdrop (pos s) content))))).
          { destruct fuel; cbn [stream_read_loop]; rewrite Hz2; now replace (n <=? zlen acc + j) with true by lia. }
          rewrite Hstop. do 3 eexists; split; [reflexivity|]. split; auto. split; [exists rest; auto|]. split; [auto|]. left.
          rewrite <- Hjn. split; auto. lia.
        * edestruct (IH s1 rest n (acc ++ ztake j (zdrop (pos s) content)) d1) as (d' & s' & out & E & Hg' & Hi' & Hl' & Hout); auto.
          { lia. }
          { assert (Hw : weight s = 2%nat).
            { unfold weight. rewrite Hrun. cbn [r_sp r_alloc]. destruct (_ && _) eqn:Ew; [auto|lia]. }
            pose proof (weight_bound s1).
            destruct Hprog as [Hp|[Hp|[Hp|Hp]]]; try lia.
            - assert (weight s1 = 1%nat). { unfold weight. rewrite Hss1. cbn [r_sp r_alloc]. destruct (_ && _) eqn:Ew; [lia|auto]. } lia.
            - assert (weight s1 = 1%nat). { unfold weight. rewrite Hss1. cbn [r_sp r_alloc]. destruct (_ && _) eqn:Ew; [lia|auto]. } lia. }
          rewrite E. do 3 eexists; split; [reflexivity|]. split; auto. split; auto. split; [lia|].
          rewrite Hz2 in Hout. rewrite Hsplit, zlen_app, Hz, Hp1 in *.
          destruct Hout as [[-> Hp']|(Hs & Hk & Hp')].
          -- left. split; [now rewrite app_assoc|]. lia.
          -- right. repeat split; auto; lia.
      + do 3 eexists; split; [reflexivity|]. split; auto.
        assert (Hsame : so_ss o (so_set o s (so_ss o s)) = so_ss o s) by apply Hset.
        split. { exists rest. destruct Hi as [H1 H2 H3 H4 H5 H6]. split; unfold pos in *; rewrite ?Hsame; auto.
          destruct H6 as [H6|H6]; [auto|right]. inversion H6; subst; [eapply AtRun|eapply AtEnd]; rewrite ?Hsame; eauto. }
        split; [auto|].
        right. split; auto. split; [eauto|]. unfold pos. rewrite Hsame.
        match goal with |- context [zlen ?l] => pose proof (zlen_nonneg l) end. unfold pos in *. lia.
    - rewrite read_data_run_none by auto.
      assert (Hsame : so_ss o (so_set o s (so_ss o s)) = so_ss o s) by apply Hset.
      set (s0 := so_set o s (so_ss o s)) in *.
      assert (Hr0 : Rest s0 rest) by (apply Hrest_set, Hi).
      destruct rest as [|r rest'].
      + edestruct (Hadv_nil s0 d) as (d2 & s2 & E & Hr2 & Hss2 & Hg2 & Hl2); auto. rewrite E.
        do 3 eexists; split; [reflexivity|]. split; auto.
        assert (Hp2 : pos s2 = pos s) by (unfold pos; now rewrite Hss2, Hsame).
        split. { exists []. destruct Hi as [H1 H2 H3 H4 H5 H6]. split; rewrite ?Hp2, ?Hss2, ?Hsame; auto.
          destruct H6 as [H6|H6]; [auto|right]. inversion H6; subst; [eapply AtRun|eapply AtEnd]; rewrite ?Hss2, ?Hsame; eauto. }
        split; [auto|]. left. rewrite content_beyond, ztake_nil, app_nil_r, zlen_nil; [split; auto; lia|].
        destruct Hi as [H1 H2 H3 H4 H5 H6]. destruct H6 as [H6|H6]; [auto|]. inversion H6; subst; auto.
        destruct Hnone as [Hn|[(r' & Hn & Hn2)|Hn]]; try congruence; [|left; lia]. right.
        rewrite H0 in Hn. injection Hn as <-. cbn in Hn2. rewrite H, runs_size_app. cbn [runs_size]. lia.
      + edestruct (Hadv_cons s0 r rest' d) as (d2 & s2 & E & Hr2 & Hss2 & Hg2 & Hl2); auto. rewrite E.
        rewrite Hsame in Hss2.
        assert (Hp2 : pos s2 = pos s) by (unfold pos; now rewrite Hss2).
        assert (Hi2 : inv_at s2 rest').
        { destruct Hi as [H1 H2 H3 (pre & H4) H5 H6]. split; rewrite ?Hp2; auto.
          - now rewrite Hss2.
          - exists (pre ++ [r]). now rewrite <- app_assoc.
          - rewrite Hss2. apply run_sane_fresh. rewrite H4. apply in_or_app; right; now left.
          - destruct H6 as [H6|H6]; [auto|]. 
            inversion H6; subst.
            assert (Hok : run_ok img r). { rewrite Forall_forall in Hruns. apply Hruns. rewrite H. apply in_or_app; right; right; now left. }
            destruct Hnone as [Hn|[(r' & Hn & Hn2)|Hn]]; [congruence| |left; lia]. right.
            rewrite H0 in Hn. injection Hn as <-. cbn in Hn2.
            eapply (AtRun _ _ (done ++ [r0]) r rest' 0).
            + now rewrite <- app_assoc.
            + rewrite Hss2. cbn [ss_run]. now rewrite <- mkRun_eta.
            + destruct Hok as (? & ? & _). lia.
            + rewrite runs_size_app. cbn [runs_size]. lia. }
        edestruct (IH s2 rest' n acc d2) as (d' & s' & out & E2 & Hg' & Hi' & Hl' & Hout); auto.
        { assert (Hw : weight s = 1%nat).
          { unfold weight. destruct Hi as [H1 H2 H3 H4 H5 H6].
            destruct Hnone as [Hn|[(r' & Hn & Hn2)|Hn]]; [now rewrite Hn|rewrite Hn|destruct (ss_run _) eqn:Er; auto];
              (destruct (_ && _) eqn:Ew; auto; lia). }
          pose proof (weight_bound s2). cbn [length] in Hfuel. lia. }
        rewrite E2. do 3 eexists; split; [reflexivity|]. split; auto. split; auto. split; [lia|]. rewrite Hp2 in Hout. auto.
  Qed.

  (** ** Seeking *)
  Definition at_start (s : S) : Prop := match ss_run (so_ss o s) with Some r => r_sp r = 0 | None => True end.
  Definition inside (s : S) : Prop := match ss_run (so_ss o s) with Some r => r_sp r < r_alloc r | None => True end.

  Lemma seek_loop_refines fuel : forall s rest is_start left d,
    ss_size (so_ss o s) = size -> run_sane (ss_run (so_ss o s)) -> Rest s rest -> (exists pre, runs = pre ++ rest) ->
    (is_start = true -> at_start s) -> 0 <= left <= U64_MAX -> (is_start = false -> left <= I64_MAX) ->
    good d -> (length rest + 1 <= fuel)%nat ->
    exists d' s' rest', stream_seek_loop o fuel s is_start left d = (d', (s', Ok tt)) /\ good d' /\
      ss_size (so_ss o s') = size /\ pos s' = pos s /\ run_sane (ss_run (so_ss o s')) /\
      Rest s' rest' /\ (exists pre, runs = pre ++ rest') /\
      (length (d_reads d') <= length (d_reads d))%nat /\
      (forall v, at_pos v s rest -> at_pos (v + left) s' rest') /\
      (0 < left \/ inside s -> inside s').
  Proof.
    induction fuel as [|fuel IH]; intros s rest is_start left d Hsz Hsane Hrest Hsuf Hst Hleft Hl2 Hg Hfuel; [lia|].
    cbn [stream_seek_loop]. destruct (left <=? 0) eqn:E0.
    { assert (left = 0) by lia; subst. do 3 eexists; split; [reflexivity|]. splits; eauto.
      - intros. now rewrite Z.add_0_r.
      - intros [?|?]; [lia|auto]. }
    assert (Hskip : forall left1, (forall v, at_pos v s rest -> exists x, v + left = x + left1 /\
          ((exists done r, runs = done ++ r :: rest /\ x = runs_size done + r_alloc r) \/ (rest = [] /\ runs_size runs <= x))) ->
        0 <= left1 <= left ->
        exists d' s' rest', (match so_advance o (so_set o s (so_ss o s)) d with
          | (d2, (s2, Ok true)) => stream_seek_loop o fuel s2 is_start left1 d2
          | (d2, (s2, Ok false)) =>
              let ss2 := so_ss o s2 in
              (d2, (so_set o s2 (mkSS None (ss_pos ss2) (ss_size ss2)), Ok tt))
          | (d2, (s2, Err e)) => (d2, (s2, Err e))
          | (d2, (s2, Panic)) => (d2, (s2, Panic))
          | (d2, (s2, OutOfFuel)) => (d2, (s2, OutOfFuel))
          end) = (d', (s', Ok tt)) /\ good d' /\
      ss_size (so_ss o s') = size /\ pos s' = pos s /\ run_sane (ss_run (so_ss o s')) /\
      Rest s' rest' /\ (exists pre, runs = pre ++ rest') /\
      (length (d_reads d') <= length (d_reads d))%nat /\
      (forall v, at_pos v s rest -> at_pos (v + left) s' rest') /\
      (0 < left \/ inside s -> inside s')).
    { intros left1 Hv Hle.
      assert (Hsame : so_ss o (so_set o s (so_ss o s)) = so_ss o s) by apply Hset.
      set (s0 := so_set o s (so_ss o s)) in *.
      assert (Hr0 : Rest s0 rest) by (now apply Hrest_set).
      destruct rest as [|r rest'].
      - edestruct (Hadv_nil s0 d) as (d2 & s2 & E & Hr2 & Hss2 & Hg2 & Hl3); auto. rewrite E. cbv zeta.
        rewrite Hsame in Hss2.
        do 3 eexists; split; [reflexivity|]. unfold pos, inside. rewrite Hset, Hss2. cbn [ss_run ss_pos ss_size run_sane].
        splits; eauto.
        intros v Hat. apply AtEnd; [now rewrite Hset|]. destruct (Hv v Hat) as (x & Hx & [(done & r & H1 & H2)|[H1 H2]]).
        + rewrite H1, runs_size_app. cbn [runs_size]. lia.
        + lia.
      - edestruct (Hadv_cons s0 r rest' d) as (d2 & s2 & E & Hr2 & Hss2 & Hg2 & Hl3); auto. rewrite E.
        rewrite Hsame in Hss2. destruct Hsuf as (pre & Hpre).
        assert (Hin : In r runs) by (rewrite Hpre; apply in_or_app; right; now left).
        assert (Hok : run_ok img r) by (rewrite Forall_forall in Hruns; auto).
        edestruct (IH s2 rest' is_start left1 d2) as (d' & s' & rest2 & E2 & Hg' & H1 & H2 & H3 & H4 & H5 & H6 & H7 & H8).
        { now rewrite Hss2. } { rewrite Hss2. now apply run_sane_fresh. } { auto. }
        { exists (pre ++ [r]). now rewrite <- app_assoc. }
        { intros _. unfold at_start. rewrite Hss2. cbn. apply Hok. }
        { lia. } { intros; specialize (Hl2 H); lia. } { auto. } { cbn [length] in Hfuel. lia. }
        do 3 eexists; split; [exact E2|]. split; auto. split; auto. split.
        { rewrite H2. unfold pos. now rewrite Hss2. }
        split; auto. split; eauto. split; eauto. split; [lia|]. split.
        + intros v Hat. destruct (Hv v Hat) as (x & -> & [(done & r0 & H9 & H10)|[H9 _]]); [|discriminate].
          apply H7. eapply (AtRun _ _ (done ++ [r0]) r rest' 0).
          * now rewrite <- app_assoc.
          * rewrite Hss2. cbn [ss_run]. now rewrite <- mkRun_eta.
          * destruct Hok as (? & ? & _); lia.
          * rewrite runs_size_app. cbn [runs_size]. lia.
        + intros _. apply H8. right. unfold inside. rewrite Hss2. cbn. destruct Hok as (-> & ? & _); lia. }
    unfold ss_seek_data_run. destruct (ss_run (so_ss o s)) as [r|] eqn:Er.
    - cbn in Hsane. unfold run_remaining. replace (Z.max 0 (r_alloc r - r_sp r)) with (r_alloc r - r_sp r) by lia.
      destruct (left <? r_alloc r - r_sp r) eqn:E1.
      + assert (Hseek : run_seek r (if is_start then SStart left else SCurrent (to_i64 left)) =
                  (mkRun (r_pos r) (r_alloc r) (r_sp r + left), Ok (r_sp r + left))).
        { unfold run_seek, seek_contiguous. destruct is_start.
          - specialize (Hst eq_refl). unfold at_start in Hst. rewrite Er in Hst. now rewrite Hst.
          - specialize (Hl2 eq_refl). unfold to_i64. replace (left <=? I64_MAX) with true by lia.
            replace (0 <=? left) with true by lia. unfold checked_add64. now replace (r_sp r + left <=? U64_MAX) with true by lia. }
        rewrite Hseek. do 3 eexists; split; [reflexivity|]. unfold pos, inside. rewrite Hset. cbn [ss_run ss_pos ss_size run_sane r_sp r_alloc].
        splits; eauto; try lia.
        intros v Hat. inversion Hat; subst; [|congruence]. rewrite Er in H0. injection H0 as ->. cbn [r_sp r_pos r_alloc].
        eapply (AtRun _ _ done r0 rest (sp + left)); eauto; try rewrite Hset; try reflexivity; cbn in *; lia.
      + apply Hskip; [|lia]. intros v Hat. inversion Hat; subst; [|congruence]. rewrite Er in H0. injection H0 as ->.
        cbn [r_sp r_alloc] in *. exists (runs_size done + r_alloc r0). split; [lia|]. left; eauto.
    - apply Hskip; [|lia]. intros v Hat. inversion Hat; subst; [congruence|]. exists v. split; auto.
  Qed.

  Lemma optimize_seek_spec s sf : ss_size (so_ss o s) = size -> 0 <= pos s <= U64_MAX -> seek_arg_ok sf ->
    let q := seek_target size (pos s) sf in
    (0 <= q <= U64_MAX /\ pos s <= q <= pos s + I64_MAX /\ optimize_seek (so_ss o s) sf size = Ok (SCurrent (q - pos s))) \/
    (0 <= q <= U64_MAX /\ (q < pos s \/ I64_MAX < q - pos s) /\ optimize_seek (so_ss o s) sf size = Ok (SStart q)) \/
    (~ (0 <= q <= U64_MAX) /\ optimize_seek (so_ss o s) sf size = Err (EIo InvalidInput)).
  Proof.
    intros Hs Hp Ha q. fold (pos s) in *.
    assert (Hopt : forall m, 0 <= m <= U64_MAX ->
      (match checked_sub64 m (ss_pos (so_ss o s)) with
       | Some k => if k <=? I64_MAX then Ok (SCurrent k) else Ok (SStart m)
       | None => Ok (SStart m) end) = (if (pos s <=? m) && (m - pos s <=? I64_MAX) then Ok (SCurrent (m - pos s)) else Ok (SStart m))).
    { intros m Hm. unfold checked_sub64. fold (pos s). destruct (pos s <=? m) eqn:E; cbn; auto. }
    destruct sf as [n|n|n]; cbn [seek_target] in q; cbn [seek_arg_ok] in Ha; unfold optimize_seek, simplify_seek;
      unfold checked_add64; fold (pos s).
    - cbn [rbind]. rewrite Hopt by lia. subst q. destruct (_ && _) eqn:E; [left|right; left]; repeat split; auto; lia.
    - destruct (0 <=? n) eqn:En.
      + destruct (size + n <=? U64_MAX) eqn:E1; cbn [rbind].
        * rewrite Hopt by (unfold U64_MAX in *; lia). fold q. destruct (_ && _) eqn:E; [left|right; left]; repeat split; auto; lia.
        * right; right. split; auto; lia.
      + assert (Hneg : (- n) mod TWO64 = - n) by (apply Z.mod_small; unfold TWO64, I64_MIN in *; lia). rewrite Hneg.
        destruct (checked_sub64 size (- n)) as [b|] eqn:E1; cbn [rbind].
        * apply checked_sub64_some in E1 as [-> E1]. rewrite Hopt by lia. replace (size - - n) with q by lia.
          destruct (_ && _) eqn:E; [left|right; left]; repeat split; auto; lia.
        * right; right. split; auto. unfold checked_sub64 in E1. destruct (- n <=? size) eqn:E2; [discriminate|lia].
    - destruct (0 <=? n) eqn:En.
      + destruct (pos s + n <=? U64_MAX) eqn:E1; cbn [rbind].
        * left. repeat split; try lia. do 2 f_equal; lia.
        * right; right. split; auto; lia.
      + assert (Hneg : (- n) mod TWO64 = - n) by (apply Z.mod_small; unfold TWO64, I64_MIN in *; lia). rewrite Hneg.
        destruct (checked_sub64 (pos s) (- n)) as [b|] eqn:E1; cbn [rbind].
        * apply checked_sub64_some in E1 as [-> E1]. rewrite Hopt by lia. replace (pos s - - n) with q by lia.
          destruct (_ && _) eqn:E; [left|right; left]; repeat split; auto; lia.
        * right; right. split; auto. unfold checked_sub64 in E1. destruct (- n <=? pos s) eqn:E2; [discriminate|lia].
  Qed.

  (** The whole [seek] function. *)
  Lemma seek_refines fuel s rest sf d :
    inv_at s rest -> good d -> seek_arg_ok sf -> (length runs + 1 <= fuel)%nat ->
    let q := seek_target size (pos s) sf in
    exists d' s' out, stream_seek o fuel s size sf d = (d', (s', out)) /\ good d' /\
      (length (d_reads d') <= length (d_reads d))%nat /\
      ((0 <= q <= U64_MAX /\ out = Ok q /\ pos s' = q /\
        exists rest', inv_at s' rest' /\
          (at_pos (pos s) s rest \/ q < pos s -> at_pos q s' rest') /\ (q <> pos s \/ inside s -> inside s'))
       \/ (~ (0 <= q <= U64_MAX) /\ out = Err (EIo InvalidInput) /\ s' = s)).
  Proof.
    intros Hi Hg Ha Hfuel q. pose proof Hi as [H1 H2 H3 H4 H5 H6].
    destruct (optimize_seek_spec s sf H1 H2 Ha) as [(Hq & Hd & E)|[(Hq & Hd & E)|(Hq & E)]]; fold q in Hq, Hd || fold q in Hq; try fold q in E;
      unfold stream_seek; rewrite E.
    - replace (0 <=? q - pos s) with true by lia.
      edestruct (seek_loop_refines fuel s rest false (q - pos s) d) as (d' & s' & rest' & E' & Hg' & K1 & K2 & K3 & K4 & K5 & K6 & K7 & K8); auto; try lia; try discriminate.
      { destruct H4 as (pre & ->). rewrite app_length in Hfuel. lia. }
      rewrite E'. unfold stream_seek_finish. fold (pos s'). rewrite K2, K1.
      replace (U64_MAX <? pos s + (q - pos s)) with false by lia.
      replace (pos s + (q - pos s)) with q in * by lia.
      do 3 eexists; split; [reflexivity|]. split; auto. split; auto. left.
      assert (Hp' : pos (so_set o s' (mkSS (ss_run (so_ss o s')) q size)) = q) by (unfold pos; now rewrite Hset).
      split; auto. split; auto. split; auto. exists rest'.
      assert (Hat : at_pos (pos s) s rest -> at_pos q (so_set o s' (mkSS (ss_run (so_ss o s')) q size)) rest').
      { intros Hat. apply K7 in Hat. replace (pos s + (q - pos s)) with q in Hat by lia.
        inversion Hat; subst; [eapply AtRun|eapply AtEnd]; rewrite ?Hset; eauto. }
      split; [split|].
      + now rewrite Hset.
      + lia.
      + auto.
      + auto.
      + now rewrite Hset.
      + rewrite Hp'. destruct H6 as [H6|H6]; [left; lia|right; auto].
      + split; [intros [?|?]; [auto|lia]|]. intros Hin. unfold inside in *. rewrite Hset. cbn. apply K8. destruct Hin; [left; lia|auto].
    - edestruct (Hrewind s rest d) as (d1 & s1 & E1 & Hr1 & Hss1 & Hg1 & Hl1); auto. rewrite E1.
      pose proof (hd_facts _ _ Hruns) as Hhd.
      assert (Hsuf1 : exists pre, runs = pre ++ tl runs).
      { destruct Hhd as [(E2 & _ & E3)|(r & t & E2 & _ & E3 & _)]; rewrite E3; [exists []|exists [r]]; auto. }
      edestruct (seek_loop_refines fuel s1 (tl runs) true q d1) as (d' & s' & rest' & E' & Hg' & K1 & K2 & K3 & K4 & K5 & K6 & K7 & K8); auto; try lia; try discriminate.
      { now rewrite Hss1. }
      { rewrite Hss1. cbn [ss_run]. destruct Hhd as [(_ & -> & _)|(r & t & E2 & -> & _)]; [exact I|]. apply run_sane_fresh. rewrite E2. now left. }
      { intros _. unfold at_start. rewrite Hss1. cbn [ss_run]. destruct Hhd as [(_ & -> & _)|(r & t & _ & -> & _ & Hok)]; auto. apply Hok. }
      { destruct Hhd as [(E2 & _ & E3)|(r & t & E2 & _ & E3 & _)]; rewrite E3; [cbn; lia|rewrite E2 in Hfuel; cbn in Hfuel; lia]. }
      rewrite E'. unfold stream_seek_finish. rewrite K1.
      do 3 eexists; split; [reflexivity|]. split; auto. split; [lia|]. left.
      assert (Hp' : pos (so_set o s' (mkSS (ss_run (so_ss o s')) q size)) = q) by (unfold pos; now rewrite Hset).
      split; auto. split; auto. split; auto. exists rest'.
      assert (Hat : at_pos q (so_set o s' (mkSS (ss_run (so_ss o s')) q size)) rest').
      { assert (Hat : at_pos (0 + q) s' rest').
        { apply K7. destruct Hhd as [(E2 & E4 & E3)|(r & t & E2 & E4 & E3 & Hok)]; rewrite E3; rewrite E4 in Hss1.
          - apply AtEnd; [now rewrite Hss1|]. rewrite E2. cbn; lia.
          - eapply (AtRun _ _ [] r t 0).
            + exact E2.
            + rewrite Hss1. cbn. now rewrite <- mkRun_eta.
            + destruct Hok as (_ & ? & _). lia.
            + reflexivity. }
        rewrite Z.add_0_l in Hat.
        inversion Hat; subst; [eapply AtRun|eapply AtEnd]; rewrite ?Hset; eauto. }
      split; [split|].
      + now rewrite Hset.
      + lia.
      + auto.
      + auto.
      + now rewrite Hset.
      + rewrite Hp'. auto.
      + split; [auto|]. intros _. unfold inside in *. rewrite Hset. cbn. apply K8. right. rewrite Hss1. cbn [ss_run].
        destruct Hhd as [(_ & -> & _)|(r & t & _ & -> & _ & Hok)]; auto. destruct Hok as (-> & ? & _). lia.
    - do 3 eexists; split; [reflexivity|]. split; auto.
  Qed.

  Lemma read_refines fuel s rest n d :
    inv_at s rest -> good d -> 0 <= n ->
    (length (d_reads d) + 2 * length runs + 2 <= fuel)%nat ->
    exists d' s' out, stream_read_loop o fuel s n [] d = (d', (s', out)) /\ good d' /\ inv s' /\
      (length (d_reads d') <= length (d_reads d))%nat /\
      ((out = Ok (ztake n (zdrop (pos s) content)) /\
        pos s' = pos s + zlen (ztake n (zdrop (pos s) content)))
       \/ (strict = false /\ (exists k, out = Err (EIo k)) /\
           pos s <= pos s' <= pos s + zlen (ztake n (zdrop (pos s) content)))).
  Proof.
    intros Hi Hg Hn Hf. edestruct (read_loop_refines fuel s rest n [] d) as (d' & s' & out & E & H1 & H2 & H3 & H4); auto.
    { pose proof (weight_bound s). destruct Hi as [_ _ _ (pre & Hp) _ _]. rewrite Hp, app_length in Hf. lia. }
    rewrite zlen_nil, Z.sub_0_r in H4. cbn [app] in H4. eauto 10.
  Qed.
End Refinement.
