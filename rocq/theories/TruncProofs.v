(** * Reading a value on a device that ends early: as long as the bytes that are read are on the device, nothing changes. *)
From Verif Require Import Base Dev Types DataRuns Stream NonResident Spec BaseProofs DevProofs DataRunsProofs StreamProofs ReaderProofs NonResidentProofs.

Section Cut.
  Context (t : Z) (Ht : 0 <= t).
  Definition cut (d : dev) : dev := mkDev (ztake t (d_img d)) (d_pos d) (d_reads d) (d_seeks d).
  Definition cutr {A} (x : dev * A) : dev * A := (cut (fst x), snd x).

  Lemma cut_seek n d : dev_seek n (cut d) = cutr (dev_seek n d).
  Proof. unfold dev_seek, cutr, cut. cbn. destruct (d_seeks d) as [|[e|] l]; reflexivity. Qed.

  Lemma cut_read n d : 0 <= d_pos d -> d_pos d + n <= t -> dev_read n (cut d) = cutr (dev_read n d).
  Proof.
    intros H1 H2. unfold dev_read, cutr, cut. cbn [d_pos d_img d_reads d_seeks]. rewrite !from_pos_nonneg by lia.
    assert (E : ztake n (zdrop (d_pos d) (ztake t (d_img d))) = ztake n (zdrop (d_pos d) (d_img d))).
    { rewrite zdrop_ztake, ztake_ztake by lia. f_equal. lia. }
    rewrite E. destruct (d_reads d) as [|[k|e] l]; reflexivity.
  Qed.

  Lemma cut_run_read r n d : match r_pos r with Some p => 0 <= p + r_sp r /\ p + r_sp r + Z.min n (run_remaining r) <= t | None => True end ->
    run_read r n (cut d) = cutr (run_read r n d).
  Proof.
    intros H. unfold run_read. destruct (run_remaining r =? 0); [reflexivity|]. destruct (r_pos r) as [p|]; [|reflexivity].
    destruct (U64_MAX <? p + r_sp r); [reflexivity|]. rewrite cut_seek.
    destruct (dev_seek (p + r_sp r) d) as [d1 x] eqn:Es. unfold cutr at 1. cbn [fst snd]. destruct x; try reflexivity.
    assert (Hp : d_pos d1 = p + r_sp r) by (unfold dev_seek in Es; destruct (d_seeks d) as [|[e|] l]; injection Es as <- Ex; auto; discriminate).
    rewrite cut_read by (rewrite Hp; lia). destruct (dev_read _ d1) as [d2 y]. unfold cutr at 1. cbn [fst snd]. destruct y; reflexivity.
  Qed.
End Cut.

Section Trunc.
  Context (cs : Z) (data : list Z) (p : position) (size : Z) (img : list Z) (runs : list run).
  Context (Hy : yields cs data p druns_start runs).
  Context (Himg : zlen img <= TWO64) (Hsize : 0 <= size <= U64_MAX) (Hruns : Forall (run_ok img) runs).
  Context (t lim : Z) (Ht : 0 <= t).
  (** Every byte of the value before [lim] is on the device. *)
  Context (Hlim : forall done r rest sp, runs = done ++ r :: rest -> 0 <= sp < r_alloc r -> runs_size done + sp < lim ->
    match r_pos r with Some q => q + sp < t | None => True end).
  Notation rest_of := (nr_rest cs data p).
  Notation inva := (nr_inv_at cs data p size runs).
  Notation goodd := (good img true).

  Lemma clen : zlen (content img size runs) = Z.min size (runs_size runs).
  Proof. unfold content. rewrite zlen_ztake, cat_len by auto. pose proof (runs_size_nonneg _ _ Hruns). lia. Qed.
  Lemma step_of v d done r rest sp n : goodd d -> runs = done ++ r :: rest -> rest_of v rest ->
    ss_run (nv_ss v) = Some (mkRun (r_pos r) (r_alloc r) sp) -> 0 <= sp < r_alloc r -> pos nr_ops v = runs_size done + sp ->
    ss_size (nv_ss v) = size -> pos nr_ops v < size -> 0 < n ->
    exists d' ss' out, ss_read_data_run (nv_ss v) n d = (d', (ss', out)) /\ goodd d' /\
      ((exists j, 1 <= j <= Z.min n (size - pos nr_ops v) /\ out = Ok (ztake j (zdrop (pos nr_ops v) (content img size runs))) /\ sp + j <= r_alloc r /\
          ss' = mkSS (Some (mkRun (r_pos r) (r_alloc r) (sp + j))) (pos nr_ops v + j) size) \/ true = false).
  Proof.
    intros. edestruct (read_data_run_step nr_ops img size runs true rest_of) with (s := v) (d := d) (n := n) as (d1 & ss1 & out1 & E1 & Hg1 & Hout);
      eauto using nr_set, nr_rest_set, nr_adv_cons, nr_adv_nil, nr_rewind_ok.
    do 3 eexists. split; [exact E1|]. split; auto. destruct Hout as [(j & ? & ? & ? & ? & _)|(? & _)]; [left; exists j; auto|right; auto].
  Qed.
  Lemma none_of v n d : (ss_run (nv_ss v) = None \/ (exists r, ss_run (nv_ss v) = Some r /\ r_alloc r <= r_sp r) \/ ss_size (nv_ss v) <= pos nr_ops v) ->
    ss_read_data_run (nv_ss v) n d = (d, (nv_ss v, Ok [])).
  Proof.
    intros. eapply (read_data_run_none nr_ops img size runs true rest_of); eauto using nr_set, nr_rest_set, nr_adv_cons, nr_adv_nil, nr_rewind_ok.
  Qed.

  Lemma inva_read v rest done r sp j : inva v rest -> runs = done ++ r :: rest ->
    ss_run (nv_ss v) = Some (mkRun (r_pos r) (r_alloc r) sp) -> 0 <= sp -> 0 <= j -> sp + j <= r_alloc r -> pos nr_ops v = runs_size done + sp -> pos nr_ops v + j <= size ->
    inva (nv_set_ss v (mkSS (Some (mkRun (r_pos r) (r_alloc r) (sp + j))) (pos nr_ops v + j) size)) rest.
  Proof.
    intros [H1 H2 H3 H4 H5 H6] Hr Hrun Hsp Hj Hb Hp Hlt. unfold pos in *. cbn [so_ss nr_ops] in *. split; unfold pos; cbn [so_ss nr_ops nv_ss nv_set_ss ss_size ss_pos ss_run]; auto.
    - unfold U64_MAX in *. lia.
    - rewrite Hrun in H5. cbn in *. lia.
    - right. eapply AtRun; cbn [so_ss nr_ops nv_ss nv_set_ss ss_run]; eauto; lia.
  Qed.

  Lemma inva_advance v r rest v2 : inva v (r :: rest) -> rest_of v2 rest -> nv_ss v2 = mkSS (Some r) (ss_pos (nv_ss v)) (ss_size (nv_ss v)) ->
    (ss_run (nv_ss v) = None \/ (exists r, ss_run (nv_ss v) = Some r /\ r_alloc r <= r_sp r) \/ ss_size (nv_ss v) <= pos nr_ops v) -> inva v2 rest.
  Proof.
    intros [H1 H2 H3 (pre & H4) H5 H6] Hr2 Hss2 Hnone. unfold pos in *. cbn [so_ss nr_ops] in *.
    assert (Hok : run_ok img r). { rewrite Forall_forall in Hruns. apply Hruns. rewrite H4. apply in_or_app; right; now left. }
    split; unfold pos; cbn [so_ss nr_ops]; rewrite ?Hss2; cbn [ss_size ss_pos ss_run]; auto.
    - exists (pre ++ [r]). now rewrite <- app_assoc.
    - destruct Hok as (? & ? & _). cbn. lia.
    - destruct H6 as [H6|H6]; [auto|]. inversion H6; subst. cbn [so_ss nr_ops] in *.
      destruct Hnone as [Hn|[(r' & Hn & Hn2)|Hn]]; [congruence| |left; lia]. right.
      rewrite H0 in Hn. injection Hn as <-. cbn in Hn2.
      eapply (AtRun _ _ _ _ (done ++ [r0]) r rest 0).
      + rewrite <- app_assoc. exact H.
      + cbn [so_ss nr_ops]. rewrite Hss2. cbn [ss_run]. now rewrite <- (mkRun_eta img).
      + destruct Hok as (? & ? & _). lia.
      + rewrite runs_size_app. cbn [runs_size]. lia.
  Qed.

  Lemma cut_loop fuel : forall v rest n acc d, inva v rest -> goodd d -> zlen acc <= n -> (pos nr_ops v < size -> Z.min (pos nr_ops v + (n - zlen acc)) size <= lim) ->
    stream_read_loop nr_ops fuel v n acc (cut t d) = cutr t (stream_read_loop nr_ops fuel v n acc d).
  Proof.
    induction fuel as [|fuel IH]; intros v rest n acc d Hi Hg Hacc Hl; cbn [stream_read_loop]; (destruct (n <=? zlen acc) eqn:En; [reflexivity|]); [reflexivity|].
    cbn [so_ss nr_ops].
    assert (Hcase : (exists done r sp, runs = done ++ r :: rest /\
        ss_run (nv_ss v) = Some (mkRun (r_pos r) (r_alloc r) sp) /\ 0 <= sp < r_alloc r /\
        pos nr_ops v = runs_size done + sp /\ pos nr_ops v < size) \/
       ((ss_run (nv_ss v) = None \/ (exists r, ss_run (nv_ss v) = Some r /\ r_alloc r <= r_sp r) \/
         ss_size (nv_ss v) <= pos nr_ops v))).
    { destruct Hi as [H1 H2 H3 H4 H5 H6]. cbn [so_ss nr_ops] in *. destruct (Z_le_gt_dec size (pos nr_ops v)) as [Hle|Hgt].
      { right; right; right. lia. }
      destruct H6 as [H6|H6]; [lia|]. inversion H6; subst; cbn [so_ss nr_ops] in *.
      - destruct (Z_lt_le_dec sp (r_alloc r)).
        + left. exists done, r, sp. repeat split; auto; lia.
        + right; right; left. eexists; split; [eauto|]. cbn; lia.
      - right; left; auto. }
    destruct Hcase as [(done & r & sp & Hr & Hrun & Hsp & Hpos & Hlt)|Hnone].
    - assert (Hsz : ss_size (nv_ss v) = size) by apply Hi.
      assert (Hok : run_ok img r) by (rewrite Hr in Hruns; apply Forall_app in Hruns as (_ & H); now inversion H).
      destruct (step_of v d done r rest sp (n - zlen acc)) as (d1 & ss1 & out1 & E1 & Hg1 & Hout); auto; try lia. { apply Hi. }
      assert (E2 : ss_read_data_run (nv_ss v) (n - zlen acc) (cut t d) = cutr t (ss_read_data_run (nv_ss v) (n - zlen acc) d)).
      { unfold ss_read_data_run. rewrite Hrun. cbn [r_alloc r_sp]. destruct (r_alloc r <=? sp); [reflexivity|]. destruct (_ =? 0) eqn:Ez; [reflexivity|].
        rewrite cut_run_read.
        - destruct (run_read _ _ d) as [d2 [r2 x]]. unfold cutr at 1. cbn [fst snd]. destruct x; reflexivity.
        - cbn [r_pos r_sp]. destruct (r_pos r) as [q|] eqn:Eq; [|exact Logic.I]. destruct Hok as (_ & Ha & Hq). rewrite Eq in Hq. split; [lia|].
          unfold run_remaining. cbn [r_alloc r_sp]. unfold pos in *. cbn [so_ss nr_ops] in *. rewrite Hsz in *.
          set (k := Z.min (Z.min (n - zlen acc) (Z.max 0 (size - ss_pos (nv_ss v)))) (Z.max 0 (r_alloc r - sp))).
          pose proof (Hlim done r rest (sp + k - 1) Hr) as Hl2. rewrite Eq in Hl2. subst k. lia. }
      cbn [so_ss nr_ops] in E1. rewrite E2, E1. unfold cutr at 1. cbn [fst snd].
      destruct Hout as [(j & Hj & -> & Hjr & ->)|Hst]; [|discriminate].
      destruct (ztake j (zdrop (pos nr_ops v) (content img size runs))) as [|b bs] eqn:Eb.
      + exfalso. apply (f_equal zlen) in Eb. rewrite zlen_nil, zlen_ztake, zlen_zdrop, clen in Eb by auto. rewrite Hr, runs_size_app in Eb. cbn [runs_size] in Eb.
        rewrite Hr in Hruns; apply Forall_app in Hruns as (H4 & H5). pose proof (Forall_inv_tail H5) as H6.
        pose proof (runs_size_nonneg _ _ H4). pose proof (runs_size_nonneg _ _ H6). lia.
      + apply (IH _ rest).
        * cbn [so_set nr_ops]. eapply inva_read; eauto; lia.
        * auto.
        * rewrite zlen_app, <- Eb, zlen_ztake. lia.
        * cbn [so_set nr_ops]. match goal with |- context [pos nr_ops ?x] => change (pos nr_ops x) with (pos nr_ops v + j) end. intros Hlt2. specialize (Hl Hlt). rewrite zlen_app, <- Eb. rewrite zlen_ztake, zlen_zdrop, clen by auto.
          rewrite Hr, runs_size_app. cbn [runs_size].
          rewrite Hr in Hruns; apply Forall_app in Hruns as (H4 & H5). pose proof (Forall_inv_tail H5) as H6.
          pose proof (runs_size_nonneg _ _ H4). pose proof (runs_size_nonneg _ _ H6). lia.
    - rewrite !none_of by auto. cbn [so_set nr_ops so_advance].
      replace (nv_set_ss v (nv_ss v)) with v by (destruct v; reflexivity).
      destruct rest as [|r rest'].
      + destruct (nr_adv_nil cs data p img true v d) as (d2 & v2 & E & _); auto. { apply Hi. }
        cbn [so_advance nr_ops] in E. destruct (nr_next_data_run v) as [v3 x]. injection E as _ _ ->. reflexivity.
      + destruct (nr_adv_cons cs data p img true v r rest' d) as (d2 & v2 & E & Hr2 & Hss2 & _); auto. { apply Hi. }
        cbn [so_advance nr_ops so_ss] in E, Hss2. destruct (nr_next_data_run v) as [v3 x]. injection E as _ -> ->.
        apply (IH _ rest'); auto.
        * eapply inva_advance; eauto.
        * unfold pos in *. cbn [so_ss nr_ops] in *. rewrite Hss2. exact Hl.
  Qed.

  Lemma cut_nr_read v n d : nr_inv cs data p size runs v -> goodd d -> 0 <= n -> (nr_stream_position v < size -> Z.min (nr_stream_position v + n) size <= lim) ->
    nr_read v n (cut t d) = cutr t (nr_read v n d).
  Proof.
    intros (rest & Hi) Hg Hn Hl. unfold nr_read. change (nr_fuel v (cut t d)) with (nr_fuel v d). apply (cut_loop _ _ rest); auto.
    change (zlen (@nil Z)) with 0. unfold pos, nr_stream_position in *. cbn [so_ss nr_ops]. replace (n - 0) with n by lia. exact Hl.
  Qed.
End Trunc.

(** Seeks do not use the device. *)
Lemma cut_seek_loop t fuel : forall v b left d, stream_seek_loop nr_ops fuel v b left (cut t d) = cutr t (stream_seek_loop nr_ops fuel v b left d).
Proof.
  induction fuel as [|fuel IH]; intros v b left d; cbn [stream_seek_loop]; (destruct (left <=? 0); [reflexivity|]); [reflexivity|].
  destruct (ss_seek_data_run _ _ _) as [[ss1 left1] x]. destruct x as [[|]| | |]; try reflexivity.
  cbn [so_advance nr_ops]. destruct (nr_next_data_run _) as [v2 y]. destruct y as [[|]| | |]; try reflexivity. apply IH.
Qed.
Lemma cut_nr_seek t v sf d : nr_seek v sf (cut t d) = cutr t (nr_seek v sf d).
Proof.
  unfold nr_seek. change (nr_fuel v (cut t d)) with (nr_fuel v d). unfold stream_seek. destruct (optimize_seek _ _ _) as [[n|n|n]| | |]; try reflexivity.
  - cbn [so_rewind nr_ops]. destruct (nr_rewind v) as [v1 x]. destruct x; try reflexivity. rewrite cut_seek_loop.
    destruct (stream_seek_loop _ _ _ _ _ d) as [d1 [v2 y]]. unfold cutr. cbn [fst snd stream_seek_finish]. destruct y; reflexivity.
  - destruct (0 <=? n); [|reflexivity]. rewrite cut_seek_loop.
    destruct (stream_seek_loop _ _ _ _ _ d) as [d1 [v2 y]]. unfold cutr. cbn [fst snd stream_seek_finish]. destruct y; try reflexivity.
    destruct (U64_MAX <? _); reflexivity.
Qed.

Lemma disk_position_run cs img l done r rest sp : valid_extents cs img l -> map (run_of cs) l = done ++ r :: rest -> 0 <= sp < r_alloc r ->
  disk_position cs l (runs_size done + sp) = match r_pos r with Some q => Some (q + sp) | None => None end.
Proof.
  intros [Hcs _ Hf _ _] Hm Hsp. apply map_split in Hm as (m1 & e & m2 & -> & <- & <- & <-). apply Forall_app in Hf as (Hf1 & _).
  rewrite runs_of_size, disk_position_app by (auto; lia). cbn [disk_position]. unfold run_of in *. cbn [r_alloc r_pos] in *.
  replace (sp <? _) with true by lia. destruct (e_lcn e); reflexivity.
Qed.

Lemma trunc_history cs img l enc p size t lim ops d :
  valid_extents cs img l -> encodes 0 l enc -> 0 <= size <= U64_MAX -> 0 <= t -> faultless d -> d_img d = ztake t img ->
  (forall q x, 0 <= q < lim -> disk_position cs l q = Some x -> x < t) ->
  Forall op_ok ops -> reads_within lim (file_content cs img l size) size 0 ops ->
  exists v, nr_new cs enc p size = Ok v /\ reader_run nr_read nr_seek v d ops = cursor_run (file_content cs img l size) size 0 ops.
Proof.
  intros Hv He Hs Ht Hf Hi Hlim Ho Hw. destruct (nr_extents_new cs img l enc p size Hv He) as (v & E & I0 & P0 & _).
  exists v. split; auto. assert (Hw2 : reads_within lim (file_content cs img l size) size (nr_stream_position v) ops) by (rewrite P0; exact Hw). rewrite <- P0 at 1. clear P0 E Hw. rename Hw2 into Hw.
  set (d0 := mkDev img (d_pos d) (d_reads d) (d_seeks d)).
  assert (Ed : d = cut t d0) by (destruct d; cbn in *; unfold cut, d0; cbn; congruence).
  assert (G0 : good img true d0) by (split; [reflexivity|intros _; exact Hf]).
  rewrite Ed. clear Ed Hi Hf. clearbody d0. revert v d0 I0 G0 Ho Hw. clear d.
  pose proof (nr_extents_refines cs img l enc p size Hv He Hs) as R.
  induction ops as [|o ops IH]; intros v d I0 G0 Ho Hw; [reflexivity|]. inversion Ho; subst. cbn [reader_run cursor_run].
  destruct (refines_step _ _ _ _ _ _ _ R v d o I0 G0 H1) as (d1 & v1 & E1 & I1 & G1 & P1).
  assert (Es : reader_step nr_read nr_seek v (cut t d) o = (cut t d1, v1, snd (cursor_step (file_content cs img l size) size (nr_stream_position v) o))).
  { destruct o as [n|sf]; cbn [reader_step reads_within op_ok] in *.
    - assert (En : nr_read v n (cut t d) = cutr t (nr_read v n d)).
      { apply (cut_nr_read cs enc p size img (map (run_of cs) l)) with (lim := lim); auto using valid_runs; try lia; try apply Hw.
        - eapply valid_yields; eauto.
        - apply Hv.
        - intros done r rest sp Hr Hsp Hl. pose proof (disk_position_run cs img l done r rest sp Hv Hr Hsp) as Hd.
          destruct (r_pos r) as [q|]; auto. eapply Hlim; [|exact Hd].
          pose proof (valid_runs _ _ _ Hv) as Hk. rewrite Hr in Hk. apply Forall_app in Hk as (Hk & _). pose proof (runs_size_nonneg _ _ Hk). lia. }
      rewrite En. destruct (nr_read v n d) as [d2 [v2 r]]. injection E1 as -> -> E1. unfold cutr. cbn [fst snd]. now rewrite E1.
    - rewrite cut_nr_seek. destruct (nr_seek v sf d) as [d2 [v2 r]]. injection E1 as -> -> E1. unfold cutr. cbn [fst snd]. now rewrite E1. }
  rewrite Es. destruct (cursor_step (file_content cs img l size) size (nr_stream_position v) o) as [p' r] eqn:Ec. cbn [fst snd] in *. f_equal. subst p'.
  apply IH; auto. destruct o as [n|sf]; cbn [reads_within] in Hw; [destruct Hw as [_ Hw]|]; rewrite Ec in Hw; exact Hw.
Qed.
