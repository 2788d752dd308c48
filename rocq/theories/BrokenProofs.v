(** * Values whose mapping pairs are damaged behind some extents. *)
From Verif Require Import Base Dev Types DataRuns Stream NonResident Spec SpecBroken BaseProofs DevProofs DataRunsProofs StreamProofs
  ReaderProofs NonResidentProofs.

(** ** Decoding *)
Inductive breaks (cs : Z) (data : list Z) (p : position) : druns -> list run -> Prop :=
| B_nil s s' e : druns_next cs data p s = (s', Some (Err e)) -> fails_with cs data p s' -> breaks cs data p s []
| B_cons s s' r l : druns_next cs data p s = (s', Some (Ok r)) -> breaks cs data p s' l -> breaks cs data p s (r :: l).

Lemma data_pair_step cs p pre prev lcn count cb ob bs :
  1 <= cs -> 0 <= prev <= U64_MAX -> unsigned_bytes cb count -> signed_bytes ob (lcn - prev) -> lcn <> prev -> lcn <> 0 ->
  extent_fits cs (mkExtent (Some lcn) count) ->
  druns_next cs (pre ++ zlen ob * 16 + zlen cb :: cb ++ ob ++ bs) p (mkDruns (zlen pre) prev) =
  (mkDruns (zlen (pre ++ zlen ob * 16 + zlen cb :: cb ++ ob)) lcn, Some (Ok (run_of cs (mkExtent (Some lcn) count)))).
Proof.
  intros Hcs Hprev (Hcb1 & Hcb2 & Hcb3) (Hob1 & Hob2 & Hob3 & Hob4) Hd1 Hd2 (Hf1 & Hf2 & Hf3). cbn [e_lcn e_count] in *.
  unfold druns_next. cbn [dr_off dr_prev]. rewrite zdrop_len_app.
  set (h := zlen ob * 16 + zlen cb). replace (h =? 0) with false by lia.
  destruct (nibbles h) as (-> & ->); [lia|].
  replace (h mod 16) with (zlen cb) by lia. replace (h / 16) with (zlen ob) by lia. cbv zeta.
  rewrite read_variable_length_ok by lia. rewrite Hcb3.
  replace (count =? 0) with false by lia. unfold checked_mul64. replace (count * cs <=? U64_MAX) with true by lia.
  rewrite read_variable_length_ok by lia. rewrite Hob4, sign_extend_ok by auto.
  replace (lcn - prev =? 0) with false by lia.
  assert (Hadd : lcn_checked_add prev (lcn - prev) = Some lcn).
  { assert (lcn <= lcn * cs) by nia.
    unfold lcn_checked_add. destruct (0 <=? lcn - prev) eqn:E.
    - apply checked_add64_some. lia.
    - rewrite Z.mod_small by (unfold TWO64, U64_MAX in *; lia). apply checked_sub64_some. lia. }
  rewrite Hadd. unfold lcn_position, checked_mul64. replace (lcn * cs <=? U64_MAX) with true by lia.
  unfold pos_new. replace (lcn * cs =? 0) with false by nia.
  replace (zlen (pre ++ h :: cb ++ ob ++ bs) - zlen bs) with (zlen (pre ++ h :: cb ++ ob)).
  2: { rewrite !zlen_app, !zlen_cons, !zlen_app. lia. }
  reflexivity.
Qed.

Lemma hole_pair_step cs p pre prev count cb bs :
  1 <= cs -> unsigned_bytes cb count -> extent_fits cs (mkExtent None count) ->
  druns_next cs (pre ++ zlen cb :: cb ++ bs) p (mkDruns (zlen pre) prev) =
  (mkDruns (zlen (pre ++ zlen cb :: cb)) prev, Some (Ok (run_of cs (mkExtent None count)))).
Proof.
  intros Hcs (Hcb1 & Hcb2 & Hcb3) (Hf1 & Hf2 & Hf3). cbn [e_lcn e_count] in *.
  unfold druns_next. cbn [dr_off dr_prev]. rewrite zdrop_len_app.
  replace (zlen cb =? 0) with false by lia.
  destruct (nibbles (zlen cb)) as (-> & ->); [lia|].
  replace (zlen cb mod 16) with (zlen cb) by lia. replace (zlen cb / 16) with 0 by lia. cbv zeta.
  rewrite read_variable_length_ok by lia. rewrite Hcb3.
  replace (count =? 0) with false by lia. unfold checked_mul64. replace (count * cs <=? U64_MAX) with true by lia.
  rewrite read_variable_length_0. change (sign_extend 0 0) with 0. cbn [Z.eqb].
  replace (zlen (pre ++ zlen cb :: cb ++ bs) - zlen bs) with (zlen (pre ++ zlen cb :: cb)).
  2: { rewrite !zlen_app, !zlen_cons, !zlen_app. lia. }
  reflexivity.
Qed.

Lemma no_pair_error cs p pre prev bs : 1 <= cs -> 0 <= prev -> prev * cs <= U64_MAX -> bytes_ok bs -> no_pair cs prev bs ->
  exists s' e, druns_next cs (pre ++ bs) p (mkDruns (zlen pre) prev) = (s', Some (Err e)).
Proof.
  intros Hcs Hprev Hprev2 Hb (h & t & -> & Hh & Hbad). inversion Hb as [|? ? Hh2 Hbt]; subst.
  assert (0 <= h <= 255) by exact Hh2. unfold druns_next. cbn [dr_off dr_prev]. rewrite zdrop_len_app. replace (h =? 0) with false by lia.
  destruct (nibbles h) as (-> & ->); [exact Hh2|]. cbv zeta in *. set (here := druns_position p _).
  destruct (read_variable_length_cases here t (h mod 16)) as [(e & E1)|(K1 & K2 & E1)]; rewrite E1; [eauto|].
  set (count := le_val (ztake (h mod 16) t)) in *.
  destruct (count =? 0) eqn:E2; [eauto|].
  destruct (checked_mul64 count cs) as [al|] eqn:E3; [|eauto]. apply checked_mul64_some in E3 as (-> & E3).
  destruct (read_variable_length_cases here (zdrop (h mod 16) t) (h / 16)) as [(e & E4)|(K3 & K4 & E4)]; rewrite E4; [eauto|].
  rewrite zlen_zdrop in K4.
  destruct Hbad as [Hx|[Hx|[Hx|[Hx|[Hx|(diff & (D1 & D2 & D3 & D4) & Hx)]]]]]; [exfalso; lia|exfalso; lia|exfalso; lia|exfalso; lia|exfalso; lia|].
  assert (Hz : zlen (slice t (h mod 16) (h mod 16 + h / 16)) = h / 16) by (rewrite slice_len; clear - K2 K4 H; lia).
  rewrite Hz in *.
  replace (ztake (h / 16) (zdrop (h mod 16) t)) with (slice t (h mod 16) (h mod 16 + h / 16)).
  2: { unfold slice. f_equal. lia. }
  rewrite D4, sign_extend_ok by auto.
  assert (Hdiff : diff =? 0 = false). { destruct (diff =? 0) eqn:E6; [exfalso|reflexivity]. assert (diff = 0) by lia. subst diff. rewrite Z.add_0_r in Hx. lia. }
  rewrite Hdiff. destruct (lcn_checked_add prev diff) as [lcn|] eqn:E5; [|eauto].
  apply lcn_checked_add_bounds in E5 as (Hl & ->).
  - unfold lcn_position, checked_mul64. replace ((prev + diff) * cs <=? U64_MAX) with false by lia. eauto.
  - clear - Hcs Hprev Hprev2. nia.
  - assert (256 ^ (h / 16) <= 256 ^ 8) by (apply Z.pow_le_mono_r; lia). change (256 ^ 8) with TWO64 in *. unfold TWO64, I64_MIN in *. lia.
Qed.

Lemma broken_breaks cs p : 1 <= cs -> forall prev l enc, encodes_broken cs prev l enc -> forall pre,
  bytes_ok (pre ++ enc) -> 0 <= prev -> prev * cs <= U64_MAX -> lcns_distinct prev l -> Forall (extent_fits cs) l ->
  breaks cs (pre ++ enc) p (mkDruns (zlen pre) prev) (map (run_of cs) l).
Proof.
  intros Hcs. induction 1 as [prev bs Hbad|prev lcn count cb ob l bs Hcb Hob He IH|prev count cb l bs Hcb He IH];
    intros pre Hb Hprev Hprev2 Hd Hf; cbn [map].
  - apply Forall_app in Hb as Hb2. destruct Hb2 as (_ & Hb2).
    destruct (no_pair_error cs p pre prev bs Hcs Hprev Hprev2 Hb2 Hbad) as (s' & e & E).
    eapply B_nil; [exact E|]. eapply druns_next_error; [..|exact E]; auto. apply zlen_nonneg.
  - cbn [lcns_distinct] in Hd. destruct Hd as (Hd1 & Hd2 & Hd3). inversion Hf as [|? ? Hf1 Hft]; subst.
    assert (0 <= prev <= U64_MAX) by nia.
    eapply B_cons; [apply data_pair_step; auto|]. destruct Hf1 as (F1 & F2 & F3). cbn [e_lcn e_count] in *.
    replace (pre ++ zlen ob * 16 + zlen cb :: cb ++ ob ++ bs) with ((pre ++ zlen ob * 16 + zlen cb :: cb ++ ob) ++ bs) in *.
    2: { rewrite <- app_assoc. cbn. now rewrite <- app_assoc. }
    apply IH; auto; lia.
  - cbn [lcns_distinct] in Hd. inversion Hf as [|? ? Hf1 Hft]; subst.
    eapply B_cons; [apply hole_pair_step; auto|].
    replace (pre ++ zlen cb :: cb ++ bs) with ((pre ++ zlen cb :: cb) ++ bs) in * by (now rewrite <- app_assoc).
    apply IH; auto.
Qed.

(** ** The reader *)
Section Broken.
  Context (cs : Z) (data : list Z) (p : position) (size : Z) (img : list Z) (runs : list run).
  Context (Hy : breaks cs data p druns_start runs) (Hne : runs <> []).
  Context (Himg : zlen img <= TWO64) (Hsize : 0 <= size <= U64_MAX) (Hruns : Forall (run_ok img) runs).

  (** The same reader, except that it takes the damage for the end of the value. *)
  Definition lenient_next (v : nrv) : nrv * res bool :=
    match nr_next_data_run v with
    | (v', Err _) => (v', Ok false)
    | x => x
    end.
  Definition lenient_ops : stream_ops nrv := {|
    so_ss := nv_ss;
    so_set := nv_set_ss;
    so_advance := fun v d => (d, lenient_next v);
    so_rewind := fun v d => (d, nr_rewind v)
  |}.

  Definition br_rest (v : nrv) (l : list run) : Prop :=
    nv_cs v = cs /\ nv_data v = data /\ nv_position v = p /\ breaks cs data p (nv_runs v) l.
  Notation goodd := (good img true).

  Lemma br_next_cons v r l : br_rest v (r :: l) -> exists v', nr_next_data_run v = (v', Ok true) /\ br_rest v' l /\
    nv_ss v' = mkSS (Some r) (ss_pos (nv_ss v)) (ss_size (nv_ss v)).
  Proof.
    intros (H1 & H2 & H3 & H4). inversion H4 as [|s s' r0 l0 E Hb Es El]. unfold nr_next_data_run. rewrite H1, H2, H3, E.
    eexists; split; [reflexivity|]. repeat split; auto.
  Qed.

  Lemma br_next_nil v : br_rest v [] -> exists v' e, nr_next_data_run v = (v', Err e) /\ br_rest v' [] /\ nv_ss v' = nv_ss v.
  Proof.
    intros (H1 & H2 & H3 & H4). inversion H4 as [s s' e E Hf Es El|]. unfold nr_next_data_run. rewrite H1, H2, H3, E.
    do 2 eexists; split; [reflexivity|]. repeat split; auto. cbn [nv_runs].
    destruct (fails_with_next _ _ _ _ Hf) as (s2 & e2 & E2 & Hf2). eapply B_nil; eauto.
  Qed.

  Lemma br_rewind v l : br_rest v l -> ss_size (nv_ss v) = size -> exists v', nr_rewind v = (v', Ok tt) /\ br_rest v' (tl runs) /\
    nv_ss v' = mkSS (hd_error runs) 0 size.
  Proof.
    intros (H1 & H2 & H3 & H4) Hs. unfold nr_rewind. rewrite H1, H2, H3, Hs.
    destruct runs as [|r t]; [congruence|].
    destruct (br_next_cons (mkNrv cs data p druns_start (ss_new size)) r t) as (v' & E & Hr & Hss); [repeat split; auto|].
    rewrite E. exists v'. auto.
  Qed.

  Lemma breaks_length s l : breaks cs data p s l -> 0 <= dr_off s -> (length l <= length (zdrop (dr_off s) data))%nat.
  Proof.
    intros H. induction H; intros Hge; cbn [length]; [lia|].
    destruct (druns_next_progress _ _ _ _ _ _ H Hge) as (Hge' & Hlt). specialize (IHbreaks Hge'). lia.
  Qed.
  Lemma br_runs_len : (length runs <= length data)%nat.
  Proof. pose proof (breaks_length _ _ Hy ltac:(cbn; lia)). cbn [druns_start dr_off] in H. rewrite zdrop_0 in H by lia. auto. Qed.

  Notation linv := (inv lenient_ops size runs br_rest).

  (** Every read gives what the lenient reader gives, unless that falls short; then it fails, in the same state. *)
  Lemma br_read_sim fuel : forall v l n acc d, br_rest v l ->
    let '(d', (v', x)) := stream_read_loop lenient_ops fuel v n acc d in
    match x with
    | Ok bs => n <= zlen bs /\ stream_read_loop nr_ops fuel v n acc d = (d', (v', Ok bs)) \/
               zlen bs < n /\ exists e, stream_read_loop nr_ops fuel v n acc d = (d', (v', Err e))
    | _ => stream_read_loop nr_ops fuel v n acc d = (d', (v', x))
    end.
  Proof.
    induction fuel as [|f IH]; intros v l n acc d Hr; cbn [stream_read_loop].
    { destruct (n <=? zlen acc) eqn:E; cbn; auto. left. split; auto. lia. }
    destruct (n <=? zlen acc) eqn:E; [cbn; left; split; auto; lia|].
    cbn [so_ss lenient_ops nr_ops so_set so_advance].
    destruct (ss_read_data_run (nv_ss v) (n - zlen acc) d) as (d1 & ss1 & x). destruct x as [[|b bs]| | |]; auto.
    - destruct l as [|r l].
      + destruct (br_next_nil (nv_set_ss v ss1)) as (v' & e & E2 & _); [exact Hr|].
        unfold lenient_next. rewrite E2. right. split; [lia|]. eauto.
      + destruct (br_next_cons (nv_set_ss v ss1) r l) as (v' & E2 & Hr' & _); [exact Hr|].
        unfold lenient_next. rewrite E2. apply (IH v' l n acc d1 Hr').
    - apply (IH (nv_set_ss v ss1) l n (acc ++ b :: bs) d1). exact Hr.
  Qed.

  (** The same for seeks; a failed one leaves the stream position. *)
  Lemma br_seek_sim fuel : forall v l is_start left d, br_rest v l ->
    let '(d', (v', x)) := stream_seek_loop lenient_ops fuel v is_start left d in
    stream_seek_loop nr_ops fuel v is_start left d = (d', (v', x)) \/
    0 < left /\ x = Ok tt /\ ss_run (nv_ss v') = None /\ exists v2 e l2, stream_seek_loop nr_ops fuel v is_start left d = (d', (v2, Err e)) /\
      br_rest v2 l2 /\ (exists pre, l = pre ++ l2) /\ ss_pos (nv_ss v2) = ss_pos (nv_ss v) /\ ss_size (nv_ss v2) = ss_size (nv_ss v).
  Proof.
    induction fuel as [|f IH]; intros v l is_start left d Hr; cbn [stream_seek_loop].
    { destruct (left <=? 0); auto. }
    destruct (left <=? 0) eqn:E0; [auto|].
    cbn [so_ss lenient_ops nr_ops so_set so_advance].
    destruct (ss_seek_data_run (nv_ss v) is_start left) as [[ss1 left1] x] eqn:Es. destruct x as [[|]| | |]; auto.
    assert (Hss : ss1 = nv_ss v).
    { unfold ss_seek_data_run in Es. destruct (ss_run (nv_ss v)) as [r|]; [|congruence].
      destruct (left <? run_remaining r); [|congruence]. destruct (run_seek _ _) as [r' [| | |]]; congruence. }
    subst ss1. replace (nv_set_ss v (nv_ss v)) with v by (destruct v; reflexivity).
    destruct l as [|r l].
    - destruct (br_next_nil v Hr) as (v' & e & E2 & Hr' & Hss). unfold lenient_next. rewrite E2. right.
      split; [lia|]. split; auto. split; auto. exists v', e, []. split; auto. split; auto. split; [exists []; auto|]. now rewrite Hss.
    - destruct (br_next_cons v r l Hr) as (v' & E2 & Hr' & Hss). unfold lenient_next. rewrite E2.
      specialize (IH v' l is_start left1 d Hr').
      destruct (stream_seek_loop lenient_ops f v' is_start left1 d) as (d' & v2 & y).
      destruct IH as [IH|(_ & H1 & H2 & v3 & e & l2 & H3 & H4 & (pre & H7) & H5 & H6)]; [auto|]. right. split; [lia|].
      split; auto. split; auto. exists v3, e, l2. split; auto. split; auto. split; [exists (r :: pre); cbn; congruence|]. rewrite H5, H6, Hss. auto.
  Qed.

  Notation cont := (StreamProofs.content img size runs).
  Notation linv_at := (inv_at lenient_ops size runs br_rest).

  Lemma br_adv_cons s r l d : br_rest s (r :: l) -> goodd d -> exists d' s',
    so_advance lenient_ops s d = (d', (s', Ok true)) /\ br_rest s' l /\
    so_ss lenient_ops s' = mkSS (Some r) (ss_pos (so_ss lenient_ops s)) (ss_size (so_ss lenient_ops s)) /\ goodd d' /\
    (length (d_reads d') <= length (d_reads d))%nat.
  Proof.
    intros H Hg. destruct (br_next_cons s r l H) as (v' & E & H1 & H2). cbn [so_advance lenient_ops so_ss]. unfold lenient_next. rewrite E. eauto 10.
  Qed.
  Lemma br_adv_nil s d : br_rest s [] -> goodd d -> exists d' s',
    so_advance lenient_ops s d = (d', (s', Ok false)) /\ br_rest s' [] /\ so_ss lenient_ops s' = so_ss lenient_ops s /\ goodd d' /\
    (length (d_reads d') <= length (d_reads d))%nat.
  Proof.
    intros H Hg. destruct (br_next_nil s H) as (v' & e & E & H1 & H2). cbn [so_advance lenient_ops so_ss]. unfold lenient_next. rewrite E. eauto 10.
  Qed.
  Lemma br_rewind_ok s l d : br_rest s l -> goodd d -> ss_size (so_ss lenient_ops s) = size -> exists d' s',
    so_rewind lenient_ops s d = (d', (s', Ok tt)) /\ br_rest s' (tl runs) /\
    so_ss lenient_ops s' = mkSS (hd_error runs) 0 size /\ goodd d' /\
    (length (d_reads d') <= length (d_reads d))%nat.
  Proof.
    intros H Hg Hs. destruct (br_rewind s l H Hs) as (v' & E & H1 & H2). cbn [so_rewind lenient_ops so_ss]. rewrite E. eauto 10.
  Qed.

  (** A value after a failed seek, which reports position [q]. *)
  Definition adrift (v : nrv) (q : Z) : Prop :=
    exists l, br_rest v l /\ (exists pre, runs = pre ++ l) /\ ss_size (nv_ss v) = size /\ ss_pos (nv_ss v) = q /\ 0 <= q <= U64_MAX.

  Lemma cont_len : zlen cont = Z.min size (runs_size runs).
  Proof. unfold StreamProofs.content. rewrite zlen_ztake, cat_len by auto. pose proof (runs_size_nonneg _ _ Hruns). lia. Qed.

  Lemma lenient_read v rest n d : linv_at v rest -> goodd d -> 0 <= n ->
    exists d' v' out, stream_read_loop lenient_ops (nr_fuel v d) v n [] d = (d', (v', out)) /\ goodd d' /\ linv v' /\
      (length (d_reads d') <= length (d_reads d))%nat /\
      ((out = Ok (ztake n (zdrop (ss_pos (nv_ss v)) cont)) /\ ss_pos (nv_ss v') = ss_pos (nv_ss v) + zlen (ztake n (zdrop (ss_pos (nv_ss v)) cont)))
       \/ (true = false /\ (exists k, out = Err (EIo k)) /\
           ss_pos (nv_ss v) <= ss_pos (nv_ss v') <= ss_pos (nv_ss v) + zlen (ztake n (zdrop (ss_pos (nv_ss v)) cont)))).
  Proof.
    intros Hi Hg Hn. assert (Hd : nv_data v = data) by apply Hi.
    eapply (read_refines lenient_ops img size runs true br_rest) with (rest := rest);
      eauto using br_adv_cons, br_adv_nil, br_rewind_ok.
    unfold nr_fuel. rewrite Hd. pose proof br_runs_len. lia.
  Qed.

  Lemma br_read v n d : linv v -> goodd d -> 0 <= n ->
    let bs := ztake n (zdrop (ss_pos (nv_ss v)) cont) in
    exists d' v', goodd d' /\ linv v' /\ ss_pos (nv_ss v') = ss_pos (nv_ss v) + zlen bs /\
      (n <= zlen bs /\ nr_read v n d = (d', (v', Ok bs)) \/
       zlen bs < n /\ exists e, nr_read v n d = (d', (v', Err e))).
  Proof.
    intros (rest & Hi) Hg Hn bs. unfold nr_read.
    destruct (lenient_read v rest n d Hi Hg Hn) as (d' & v' & out & E & H1 & H2 & H3 & [[Ho Hp]|(? & _)]); [|discriminate].
    exists d', v'. split; auto. split; auto. split; [exact Hp|].
    pose proof (br_read_sim (nr_fuel v d) v rest n [] d) as Hs. rewrite E, Ho in Hs. apply Hs. apply Hi.
  Qed.

  Lemma no_run_end v rest : linv_at v rest -> ss_run (nv_ss v) = None -> zlen cont <= ss_pos (nv_ss v).
  Proof.
    intros [_ _ _ _ _ Hat] Hn. rewrite cont_len. destruct Hat as [Hat|Hat]; unfold pos in *; cbn [so_ss lenient_ops] in *; [lia|].
    inversion Hat; cbn [so_ss lenient_ops] in *; [congruence|lia].
  Qed.

  Lemma lenient_seek v rest sf d : linv_at v rest -> goodd d -> seek_arg_ok sf ->
    let q := seek_target size (ss_pos (nv_ss v)) sf in
    exists d' v' out, stream_seek lenient_ops (nr_fuel v d) v size sf d = (d', (v', out)) /\ goodd d' /\
      ((0 <= q <= U64_MAX /\ out = Ok q /\ ss_pos (nv_ss v') = q /\ linv v')
       \/ (~ (0 <= q <= U64_MAX) /\ out = Err (EIo InvalidInput) /\ v' = v)).
  Proof.
    intros Hi Hg Ha q. assert (Hd : nv_data v = data) by apply Hi.
    assert (Hf : (length runs + 1 <= nr_fuel v d)%nat). { unfold nr_fuel. rewrite Hd. pose proof br_runs_len. lia. }
    pose proof (seek_refines lenient_ops img size runs true br_rest (fun _ _ => eq_refl) (fun _ _ _ H => H) br_adv_cons br_adv_nil br_rewind_ok
      Hsize Hruns (nr_fuel v d) v rest sf d Hi Hg Ha Hf) as (d' & v' & out & E & H1 & H2 & H3). unfold pos in H3. cbn [so_ss lenient_ops] in H3. fold q in H3.
    exists d', v', out. split; auto. split; auto. destruct H3 as [(Hq & Ho & Hp & rest' & Hi' & _)|H3]; [left|right; exact H3].
    splits; auto; try lia. exists rest'; auto.
  Qed.

  Lemma br_optimize v sf : ss_size (nv_ss v) = size -> 0 <= ss_pos (nv_ss v) <= U64_MAX -> seek_arg_ok sf ->
    let q := seek_target size (ss_pos (nv_ss v)) sf in
    (0 <= q <= U64_MAX /\ ss_pos (nv_ss v) <= q <= ss_pos (nv_ss v) + I64_MAX /\ optimize_seek (nv_ss v) sf size = Ok (SCurrent (q - ss_pos (nv_ss v)))) \/
    (0 <= q <= U64_MAX /\ (q < ss_pos (nv_ss v) \/ I64_MAX < q - ss_pos (nv_ss v)) /\ optimize_seek (nv_ss v) sf size = Ok (SStart q)) \/
    (~ (0 <= q <= U64_MAX) /\ optimize_seek (nv_ss v) sf size = Err (EIo InvalidInput)).
  Proof.
    exact (optimize_seek_spec lenient_ops img size runs true br_rest (fun _ _ => eq_refl) (fun _ _ _ H => H) br_adv_cons br_adv_nil br_rewind_ok
      Hsize v sf).
  Qed.

  Lemma br_seek v rest sf d : linv_at v rest -> goodd d -> seek_arg_ok sf ->
    let q := seek_target size (ss_pos (nv_ss v)) sf in
    exists d' v' x, nr_seek v sf d = (d', (v', x)) /\ goodd d' /\
     ((0 <= q <= U64_MAX /\ x = Ok q /\ linv v' /\ ss_pos (nv_ss v') = q) \/
      (~ 0 <= q <= U64_MAX /\ x = Err (EIo InvalidInput) /\ v' = v) \/
      (zlen cont <= q <= U64_MAX /\ q <> ss_pos (nv_ss v) /\ (exists e, x = Err e) /\
       exists p', adrift v' p' /\ (p' = 0 \/ p' = ss_pos (nv_ss v) /\ ss_pos (nv_ss v) < q))).
  Proof.
    intros Hi Hg Ha q. pose proof Hi as [I1 I2 I3 I4 I5 I6]. unfold pos in I2. cbn [so_ss lenient_ops] in I1, I2.
    destruct (lenient_seek v rest sf d Hi Hg Ha) as (d' & v' & out & E & H1 & H3). fold q in H3.
    unfold nr_seek, nr_len. rewrite I1.
    destruct (br_optimize v sf I1 I2 Ha) as [(Hq & Hd & Eo)|[(Hq & Hd & Eo)|(Hq & Eo)]];
      fold q in Hq; try fold q in Hd; try fold q in Eo;
      unfold stream_seek in *; cbn [so_ss nr_ops lenient_ops] in *; rewrite Eo in E |- *.
    - replace (0 <=? q - ss_pos (nv_ss v)) with true in * by lia.
      pose proof (br_seek_sim (nr_fuel v d) v rest false (q - ss_pos (nv_ss v)) d I3) as Hs.
      destruct (stream_seek_loop lenient_ops (nr_fuel v d) v false (q - ss_pos (nv_ss v)) d) as (d1 & v1 & y).
      destruct Hs as [Hs|(Hl & Hy1 & Hn & v2 & e & l2 & Hs & Hr2 & (pre2 & Hp2) & K1 & K2)]; rewrite Hs.
      + exists d', v', out. split; [exact E|]. split; auto. destruct H3 as [(? & ? & ? & ?)|H3]; auto.
      + subst y. cbn [stream_seek_finish] in *. destruct H3 as [(_ & -> & Hp & (rest' & Hi'))|(? & _)]; [|lia].
        cbn [so_ss lenient_ops so_set] in E. destruct (U64_MAX <? _); [discriminate|].
        assert (Hd1 : d1 = d') by congruence. assert (Hv1 : nv_set_ss v1 (mkSS (ss_run (nv_ss v1)) (ss_pos (nv_ss v1) + (q - ss_pos (nv_ss v))) (ss_size (nv_ss v1))) = v') by congruence.
        subst d1. exists d', v2, (Err e). split; auto. split; auto. right; right.
        assert (Hc : zlen cont <= ss_pos (nv_ss v')). { apply (no_run_end v' rest' Hi'). rewrite <- Hv1. exact Hn. }
        split; [lia|]. split; [lia|]. split; [eauto|]. exists (ss_pos (nv_ss v)). split; [|right; lia].
        exists l2. split; auto. split; [destruct I4 as (pre & Hpre); exists (pre ++ pre2); rewrite Hpre, Hp2; now rewrite app_assoc|].
        rewrite K2, K1. auto.
    - cbn [so_rewind lenient_ops nr_ops] in *. destruct (br_rewind v rest I3 I1) as (v0 & Er & Hr0 & Hss0). rewrite Er in E |- *.
      pose proof (br_seek_sim (nr_fuel v d) v0 (tl runs) true q d Hr0) as Hs.
      destruct (stream_seek_loop lenient_ops (nr_fuel v d) v0 true q d) as (d1 & v1 & y).
      destruct Hs as [Hs|(Hl & Hy1 & Hn & v2 & e & l2 & Hs & Hr2 & (pre2 & Hp2) & K1 & K2)]; rewrite Hs.
      + exists d', v', out. split; [exact E|]. split; auto. destruct H3 as [(? & ? & ? & ?)|H3]; auto.
      + subst y. cbn [stream_seek_finish] in *. destruct H3 as [(_ & -> & Hp & (rest' & Hi'))|(? & _)]; [|lia].
        cbn [so_ss lenient_ops so_set] in E.
        assert (Hd1 : d1 = d') by congruence. assert (Hv1 : nv_set_ss v1 (mkSS (ss_run (nv_ss v1)) q (ss_size (nv_ss v1))) = v') by congruence.
        subst d1. exists d', v2, (Err e). split; auto. split; auto. right; right.
        assert (Hc : zlen cont <= ss_pos (nv_ss v')). { apply (no_run_end v' rest' Hi'). rewrite <- Hv1. exact Hn. }
        split; [lia|]. split; [unfold I64_MAX in *; lia|]. split; [eauto|]. exists 0. split; [|left; auto].
        exists l2. split; auto. split. { destruct runs as [|r t]; [congruence|]. exists (r :: pre2). cbn in *. congruence. }
        rewrite K2, K1, Hss0. cbn. splits; auto; unfold U64_MAX; lia.
    - exists d', v', out. split; auto. split; auto. destruct H3 as [(? & _)|H3]; auto. lia.
  Qed.

  (** ** Histories *)
  Definition stands (v : nrv) (w : place) : Prop :=
    match w with
    | At q => linv v /\ ss_pos (nv_ss v) = q
    | Adrift q => adrift v q
    | Unknown => True
    end.

  Lemma br_step v w d o : stands v w -> (w <> Unknown -> goodd d) -> op_ok o ->
    let '(d', v', x) := reader_step nr_read nr_seek v d o in
    exists w', allowed cont size w o x w' /\ stands v' w' /\ (w' <> Unknown -> goodd d').
  Proof.
    intros Hw Hg Ho. destruct w as [q|q|].
    - destruct Hw as (Hi & Hp). specialize (Hg ltac:(discriminate)). destruct o as [n|sf]; cbn [reader_step op_ok] in *.
      + destruct (br_read v n d Hi Hg ltac:(lia)) as (d' & v' & G & Hi' & Hp' & [(Hl & ->)|(Hl & e & ->)]); rewrite Hp in *.
        * exists (At (q + n)). split; [now apply al_read|]. split; auto. split; auto. rewrite Hp'. f_equal.
          rewrite zlen_ztake in *. pose proof (zlen_nonneg (zdrop q cont)). lia.
        * exists (At (q + zlen (ztake n (zdrop q cont)))). split; [now apply al_read_end|]. split; auto. split; auto.
      + destruct Hi as (rest & Hi).
        destruct (br_seek v rest sf d Hi Hg Ho) as (d' & v' & x & -> & G & [(Hq & -> & Hi' & Hp')|[(Hq & -> & ->)|(Hq & Hqn & (e & ->) & p' & Ha & Hp')]]); rewrite Hp in *.
        * exists (At (seek_target size q sf)). split; [now apply al_seek|]. split; auto. split; auto.
        * exists (At q). split; [now apply al_invalid|]. split; auto. split; auto. exists rest; auto.
        * exists (Adrift p'). split; [apply al_seek_end; auto; tauto|]. split; auto.
    - specialize (Hg ltac:(discriminate)). destruct o as [n|sf]; cbn [reader_step op_ok] in *.
      { destruct (nr_read v n d) as (d' & v' & x). exists Unknown. split; [constructor|]. split; [exact Logic.I|congruence]. }
      destruct Hw as (l & Hr & Hsuf & Hs & Hp & Hq).
      set (t := seek_target size q sf). assert (Hpb : 0 <= ss_pos (nv_ss v) <= U64_MAX) by (rewrite Hp; exact Hq).
      destruct (Z_lt_le_dec q t) as [Hlt|Hle]; [destruct (Z_le_gt_dec t U64_MAX) as [Hmax|Hmax]|].
      + destruct (nr_seek v sf d) as (d' & v' & x). exists Unknown. split; [apply al_adrift_forward; fold t; lia|]. split; [exact Logic.I|congruence].
      + destruct (br_optimize v sf Hs Hpb Ho) as [(Hx & _)|[(Hx & _)|(Hx & Eo)]];
          rewrite ?Hp in Hx; fold t in Hx; try lia.
        unfold nr_seek, stream_seek, nr_len. cbn [so_ss nr_ops]. rewrite Hs, Eo. exists (Adrift q). split; [apply al_adrift_invalid; fold t; lia|].
        split; auto. exists l. auto.
      + destruct (br_optimize v sf Hs Hpb Ho) as [(Hx & Hd & Eo)|[(Hx & Hd & Eo)|(Hx & Eo)]];
          rewrite Hp in *; fold t in Hx; try fold t in Hd; try fold t in Eo.
        * assert (Ht : t = q) by lia. unfold nr_seek, stream_seek, nr_len. cbn [so_ss nr_ops]. rewrite Hs, Eo, Ht, Z.sub_diag.
          cbn [Z.leb Z.compare]. assert (El : stream_seek_loop nr_ops (nr_fuel v d) v false 0 d = (d, (v, Ok tt))).
          { destruct (nr_fuel v d); reflexivity. }
          rewrite El. cbn [stream_seek_finish so_ss nr_ops so_set]. rewrite Hp, Z.add_0_r. replace (U64_MAX <? q) with false by lia.
          exists (Adrift q). split; [now apply al_stay|]. split; auto. exists l. cbn [nv_ss nv_set_ss ss_size ss_pos]. auto.
        * assert (Ht : t < q) by (unfold I64_MAX in *; lia).
          set (v0 := nv_set_ss v (mkSS None U64_MAX size)).
          assert (Hi0 : linv_at v0 l).
          { split; unfold pos; cbn [so_ss lenient_ops nv_ss nv_set_ss v0 ss_size ss_pos ss_run run_sane]; auto; try lia; unfold U64_MAX; lia. }
          assert (E0 : nr_seek v sf d = nr_seek v0 (SStart t) d).
          { unfold nr_seek, nr_len. cbn [nv_ss nv_set_ss v0 ss_size]. rewrite Hs. unfold stream_seek at 1. cbn [so_ss nr_ops]. rewrite Eo.
            assert (B0 : 0 <= ss_pos (nv_ss v0) <= U64_MAX) by (change (0 <= U64_MAX <= U64_MAX); unfold U64_MAX; lia).
            destruct (br_optimize v0 (SStart t) eq_refl B0 Hx) as [(Hx2 & Hd2 & Eo2)|[(Hx2 & Hd2 & Eo2)|(Hx2 & Eo2)]];
              cbn [seek_target] in *; change (ss_pos (nv_ss v0)) with U64_MAX in *; [exfalso; lia| |exfalso; lia].
            unfold stream_seek. change (so_ss nr_ops v0) with (nv_ss v0). rewrite Eo2. cbn [so_rewind nr_ops].
              replace (nr_rewind v0) with (nr_rewind v). 2: { unfold v0, nr_rewind. cbn [nv_cs nv_data nv_position nv_set_ss nv_ss ss_size]. now rewrite Hs. }
              reflexivity. }
          rewrite E0.
          destruct (br_seek v0 l (SStart t) d Hi0 Hg) as (d' & v' & x & -> & G & [(Hq2 & -> & Hi' & Hp')|[(Hq2 & -> & ->)|(Hq2 & Hqn & (e & ->) & p' & Ha & Hp')]]);
            cbn [seek_target seek_arg_ok] in *; auto; try lia.
          -- exists (At t). split; [apply al_back; fold t; lia|]. split; auto. split; auto.
          -- cbn [nv_ss nv_set_ss v0 ss_pos] in Hp'. assert (p' = 0) by lia. subst p'.
             exists (Adrift 0). split; [apply al_back_end; fold t; lia|]. split; auto.
        * unfold nr_seek, stream_seek, nr_len. cbn [so_ss nr_ops]. rewrite Hs, Eo. exists (Adrift q). split; [apply al_adrift_invalid; fold t; lia|].
          split; auto. exists l. auto.
    - destruct (reader_step nr_read nr_seek v d o) as [[d' v'] x]. exists Unknown. split; [constructor|]. split; [exact Logic.I|congruence].
  Qed.

  Lemma br_history ops : forall v w d, stands v w -> (w <> Unknown -> goodd d) -> Forall op_ok ops ->
    allowed_run cont size w ops (reader_run nr_read nr_seek v d ops).
  Proof.
    induction ops as [|o ops IH]; intros v w d Hw Hg Ho; cbn [reader_run]; [constructor|]. inversion Ho; subst.
    pose proof (br_step v w d o Hw Hg H1) as Hst. destruct (reader_step nr_read nr_seek v d o) as [[d' v'] x].
    destruct Hst as (w' & Ha & Hw' & Hg'). econstructor; eauto.
  Qed.

  Lemma br_new : exists v, nr_new cs data p size = Ok v /\ linv v /\ ss_pos (nv_ss v) = 0.
  Proof.
    unfold nr_new. destruct runs as [|r t] eqn:Er; [congruence|].
    destruct (br_next_cons (mkNrv cs data p druns_start (ss_new size)) r t) as (v' & E & Hr & Hss); [repeat split; auto|].
    rewrite E. exists v'. split; auto. cbn [nv_ss ss_new ss_pos ss_size] in Hss. split; [|now rewrite Hss].
    inversion Hruns as [|? ? (K1 & K2 & K3) _]; subst. exists t. split; unfold pos; cbn [so_ss lenient_ops]; rewrite ?Hss; cbn [ss_size ss_pos ss_run run_sane]; auto.
    - unfold U64_MAX; lia.
    - exists [r]; auto.
    - lia.
    - right. apply (AtRun lenient_ops (r :: t) 0 v' [] r t 0); auto; [|lia]. cbn [so_ss lenient_ops]. rewrite Hss. cbn [ss_run]. f_equal.
      destruct r; cbn in *. congruence.
  Qed.
End Broken.

Lemma broken_history cs img l enc p size ops d :
  valid_extents cs img l -> l <> [] -> encodes_broken cs 0 l enc -> bytes_ok enc -> 0 <= size <= U64_MAX ->
  faultless d -> d_img d = img -> Forall op_ok ops ->
  exists v, nr_new cs enc p size = Ok v /\
    allowed_run (file_content cs img l size) size (At 0) ops (reader_run nr_read nr_seek v d ops).
Proof.
  intros Hv Hne He Hb Hs Hd Himg Ho. pose proof (valid_runs _ _ _ Hv) as Hr.
  pose proof Hv as [Hcs Hi Hf _ Hdist].
  assert (Hbr : breaks cs enc p druns_start (map (run_of cs) l)).
  { apply (broken_breaks cs p Hcs 0 l enc He []); auto; unfold U64_MAX; lia. }
  assert (Hne2 : map (run_of cs) l <> []) by (destruct l; [congruence|discriminate]).
  destruct (br_new cs enc p size img _ Hbr Hne2 Hr) as (v & E & Hi2 & Hp). exists v. split; auto.
  rewrite <- content_of. apply (br_history cs enc p size img _ Hbr Hne2 Hi Hs Hr).
  - split; auto.
  - intros _. split; auto.
  - auto.
Qed.

Lemma broken_at_start cs enc p size : 1 <= cs -> bytes_ok enc -> encodes_broken cs 0 [] enc -> exists e, nr_new cs enc p size = Err e.
Proof.
  intros Hcs Hb He. inversion He; subst.
  destruct (no_pair_error cs p [] 0 enc Hcs ltac:(lia) ltac:(unfold U64_MAX; lia) Hb H) as (s' & e & E).
  unfold nr_new, nr_next_data_run. cbn [nv_cs nv_data nv_position nv_runs nv_ss]. cbn [app] in E. change druns_start with (mkDruns (zlen (@nil Z)) 0).
  rewrite E. eauto.
Qed.

(** Two extents of one cluster of two bytes, then a header of nine length bytes. *)
Definition broken_pairs : list Z := [17; 1; 1; 17; 1; 1; 9].
Definition broken_image : list Z := [235; 235; 1; 2; 3; 4].
Definition broken_extents : list extent := [mkExtent (Some 1) 1; mkExtent (Some 2) 1].
Definition broken_dev : dev := mkDev broken_image 0 [] [].

Lemma broken_pairs_ok : valid_extents 2 broken_image broken_extents /\ encodes_broken 2 0 broken_extents broken_pairs /\ bytes_ok broken_pairs.
Proof.
  split; [|split].
  - split.
    + lia.
    + vm_compute; discriminate.
    + repeat constructor; vm_compute; repeat split; discriminate.
    + repeat constructor; vm_compute; try discriminate; reflexivity.
    + cbn. repeat split; discriminate.
  - apply (eb_data 2 0 1 1 [1] [1] [mkExtent (Some 2) 1] [17; 1; 1; 9]).
    + split; [|vm_compute; repeat split; discriminate]. apply bytes_okb_ok; reflexivity.
    + split; [apply bytes_okb_ok; reflexivity|vm_compute; repeat split; discriminate].
    + apply (eb_data 2 1 2 1 [1] [1] [] [9]).
      * split; [|vm_compute; repeat split; discriminate]. apply bytes_okb_ok; reflexivity.
      * split; [apply bytes_okb_ok; reflexivity|vm_compute; repeat split; discriminate].
      * apply eb_broken. exists 9, []. split; auto. split; [lia|]. left. vm_compute. reflexivity.
  - apply bytes_okb_ok; reflexivity.
Qed.

Lemma seek_start_wrong : exists cs img l enc size v d e,
  valid_extents cs img l /\ encodes_broken cs 0 l enc /\ bytes_ok enc /\ faultless d /\ d_img d = img /\
  nr_new cs enc None size = Ok v /\
  reader_run nr_read nr_seek v d [OSeek (SEnd (-1)); OSeek (SStart 0); ORead 2] = [RPos (Err e); RPos (Ok 0); RBytes (Ok [3; 4])] /\
  ztake 2 (file_content cs img l size) = [1; 2].
Proof.
  destruct broken_pairs_ok as (H1 & H2 & H3).
  destruct (nr_new 2 broken_pairs None 6) as [v| | |] eqn:Ev; try (vm_compute in Ev; discriminate).
  exists 2, broken_image, broken_extents, broken_pairs, 6, v, broken_dev. eexists.
  split; [exact H1|]. split; [exact H2|]. split; [exact H3|].
  split; [repeat split; constructor|]. split; [reflexivity|]. split; [exact Ev|].
  vm_compute in Ev. injection Ev as <-. split; vm_compute; reflexivity.
Qed.
