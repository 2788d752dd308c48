(** * The non-resident reader refines a cursor. *)
From Verif Require Import Base Dev Types DataRuns Stream NonResident Spec BaseProofs DevProofs DataRunsProofs StreamProofs ReaderProofs.

Section NR.
  Context (cs : Z) (data : list Z) (p : position) (size : Z) (img : list Z) (runs : list run) (strict : bool).
  Context (Hy : yields cs data p druns_start runs).
  Context (Himg : zlen img <= TWO64) (Hsize : 0 <= size <= U64_MAX) (Hruns : Forall (run_ok img) runs).

  Definition nr_rest (v : nrv) (l : list run) : Prop :=
    nv_cs v = cs /\ nv_data v = data /\ nv_position v = p /\ yields cs data p (nv_runs v) l.

  Lemma nr_set s x : so_ss nr_ops (so_set nr_ops s x) = x.
  Proof. reflexivity. Qed.
  Lemma nr_rest_set s l x : nr_rest s l -> nr_rest (so_set nr_ops s x) l.
  Proof. intros H; exact H. Qed.

  Notation goodd := (good img strict).

  Lemma nr_adv_cons s r l d : nr_rest s (r :: l) -> goodd d -> exists d' s',
    so_advance nr_ops s d = (d', (s', Ok true)) /\ nr_rest s' l /\
    so_ss nr_ops s' = mkSS (Some r) (ss_pos (so_ss nr_ops s)) (ss_size (so_ss nr_ops s)) /\ goodd d' /\
    (length (d_reads d') <= length (d_reads d))%nat.
  Proof.
    intros (H1 & H2 & H3 & H4) Hg. inversion H4; subst. cbn [so_advance nr_ops so_ss]. unfold nr_next_data_run. rewrite ?H1, ?H2, ?H3.
    match goal with H : druns_next _ _ _ _ = _ |- _ => rewrite H end. do 2 eexists; split; [reflexivity|]. splits; auto. repeat split; auto.
  Qed.

  Lemma nr_adv_nil s d : nr_rest s [] -> goodd d -> exists d' s',
    so_advance nr_ops s d = (d', (s', Ok false)) /\ nr_rest s' [] /\ so_ss nr_ops s' = so_ss nr_ops s /\ goodd d' /\
    (length (d_reads d') <= length (d_reads d))%nat.
  Proof.
    intros (H1 & H2 & H3 & H4) Hg. inversion H4; subst. cbn [so_advance nr_ops so_ss]. unfold nr_next_data_run. rewrite ?H1, ?H2, ?H3.
    match goal with H : druns_next _ _ _ _ = _ |- _ => rewrite H end. do 2 eexists; split; [reflexivity|]. splits; auto. repeat split; auto. cbn. eapply Y_nil; eauto.
  Qed.

  Lemma nr_start_facts d0 :
    exists v', nr_next_data_run (mkNrv cs data p druns_start (ss_new d0)) = (v', Ok (match runs with [] => false | _ => true end)) /\
      nr_rest v' (tl runs) /\ nv_ss v' = mkSS (hd_error runs) 0 d0.
  Proof.
    unfold nr_next_data_run. cbn [nv_cs nv_data nv_position nv_runs nv_ss]. inversion Hy; subst; rewrite H.
    - eexists; split; [reflexivity|]. split; [|reflexivity]. repeat split; auto. cbn. eapply Y_nil; eauto.
    - eexists; split; [reflexivity|]. split; [|reflexivity]. repeat split; auto.
  Qed.

  Lemma nr_rewind_ok s l d : nr_rest s l -> goodd d -> ss_size (so_ss nr_ops s) = size -> exists d' s',
    so_rewind nr_ops s d = (d', (s', Ok tt)) /\ nr_rest s' (tl runs) /\
    so_ss nr_ops s' = mkSS (hd_error runs) 0 size /\ goodd d' /\
    (length (d_reads d') <= length (d_reads d))%nat.
  Proof.
    intros (H1 & H2 & H3 & H4) Hg Hss. cbn [so_rewind nr_ops so_ss] in *. unfold nr_rewind. rewrite H1, H2, H3, Hss.
    destruct (nr_start_facts size) as (v' & E & Hr & Hss'). rewrite E.
    do 2 eexists; split; [reflexivity|]. auto.
  Qed.

  Lemma yields_length s l : yields cs data p s l -> 0 <= dr_off s -> (length l <= length (zdrop (dr_off s) data))%nat.
  Proof.
    intros H. induction H; intros Hge; cbn [length]; [lia|].
    destruct (druns_next_progress _ _ _ _ _ _ H Hge) as (Hge' & Hlt). specialize (IHyields Hge'). lia.
  Qed.

  Lemma runs_len : (length runs <= length data)%nat.
  Proof. pose proof (yields_length _ _ Hy ltac:(cbn; lia)). cbn [druns_start dr_off] in H. rewrite zdrop_0 in H by lia. auto. Qed.

  Definition nr_inv_at := inv_at nr_ops size runs nr_rest.
  Definition nr_inv := inv nr_ops size runs nr_rest.

  Lemma nr_new_ok : exists v, nr_new cs data p size = Ok v /\ nr_inv_at v (tl runs) /\ nr_stream_position v = 0 /\
     at_pos nr_ops runs 0 v (tl runs) /\ inside nr_ops v.
  Proof.
    unfold nr_new. destruct (nr_start_facts size) as (v' & E & Hr & Hss). rewrite E. exists v'.
    pose proof (hd_facts _ _ Hruns) as Hhd.
    assert (Hat : at_pos nr_ops runs 0 v' (tl runs)).
    { destruct Hhd as [(E2 & E4 & E3)|(r & t & E2 & E4 & E3 & Hok)]; rewrite E3; rewrite E4 in Hss.
      - apply AtEnd; [cbn; now rewrite Hss|]. rewrite E2; cbn; lia.
      - eapply (AtRun _ _ _ _ [] r t 0); eauto; [|destruct Hok; lia].
        cbn. rewrite Hss. cbn. now rewrite <- (mkRun_eta img). }
    split; auto. split; [split|]; cbn [so_ss nr_ops]; unfold pos; cbn [so_ss nr_ops]; rewrite ?Hss; cbn [ss_size ss_pos ss_run]; auto.
    - unfold U64_MAX; lia.
    - destruct Hhd as [(E2 & _ & E3)|(r & t & E2 & _ & E3 & _)]; rewrite E3; [exists []|exists [r]]; auto.
    - destruct Hhd as [(E2 & -> & E3)|(r & t & E2 & -> & E3 & Hok)]; cbn; auto. destruct Hok as (? & ? & _). lia.
    - unfold nr_stream_position. rewrite Hss. split; auto. split; auto. unfold inside; cbn [so_ss nr_ops]. rewrite Hss. cbn [ss_run].
      destruct Hhd as [(E2 & -> & E3)|(r & t & E2 & -> & E3 & Hok)]; cbn; auto. destruct Hok as (? & ? & _). lia.
  Qed.

  Lemma nr_inv_facts v : nr_inv v -> nv_cs v = cs /\ nv_data v = data /\ nr_len v = size.
  Proof. intros (rest & [H1 H2 (H3 & H4 & H5 & H6) H7 H8 H9]). auto. Qed.

  Lemma nr_read_ok v n d : nr_inv v -> goodd d -> 0 <= n ->
    exists d' v' out, nr_read v n d = (d', (v', out)) /\ goodd d' /\ nr_inv v' /\
      (length (d_reads d') <= length (d_reads d))%nat /\
      ((out = Ok (ztake n (zdrop (nr_stream_position v) (content img size runs))) /\
        nr_stream_position v' = nr_stream_position v + zlen (ztake n (zdrop (nr_stream_position v) (content img size runs))))
       \/ (strict = false /\ (exists k, out = Err (EIo k)) /\
           nr_stream_position v <= nr_stream_position v' <=
           nr_stream_position v + zlen (ztake n (zdrop (nr_stream_position v) (content img size runs))))).
  Proof.
    intros Hi Hg Hn. pose proof (nr_inv_facts _ Hi) as (_ & Hd & _). destruct Hi as (rest & Hi). unfold nr_read.
    eapply (read_refines nr_ops img size runs strict nr_rest) with (rest := rest);
      eauto using nr_set, nr_rest_set, nr_adv_cons, nr_adv_nil, nr_rewind_ok.
    unfold nr_fuel. rewrite Hd. pose proof runs_len. lia.
  Qed.

  Lemma nr_seek_ok v rest sf d : nr_inv_at v rest -> goodd d -> seek_arg_ok sf ->
    let q := seek_target size (nr_stream_position v) sf in
    exists d' v' out, nr_seek v sf d = (d', (v', out)) /\ goodd d' /\
      (length (d_reads d') <= length (d_reads d))%nat /\
      ((0 <= q <= U64_MAX /\ out = Ok q /\ nr_stream_position v' = q /\
        exists rest', nr_inv_at v' rest' /\
          (at_pos nr_ops runs (nr_stream_position v) v rest \/ q < nr_stream_position v -> at_pos nr_ops runs q v' rest') /\
          (q <> nr_stream_position v \/ inside nr_ops v -> inside nr_ops v'))
       \/ (~ (0 <= q <= U64_MAX) /\ out = Err (EIo InvalidInput) /\ v' = v)).
  Proof.
    intros Hi Hg Ha. unfold nr_seek.
    assert (Hi' : nr_inv v) by (exists rest; auto). destruct (nr_inv_facts _ Hi') as (_ & Hd & ->).
    eapply (seek_refines nr_ops img size runs strict nr_rest) with (rest := rest);
      eauto using nr_set, nr_rest_set, nr_adv_cons, nr_adv_nil, nr_rewind_ok.
    unfold nr_fuel. rewrite Hd. pose proof runs_len. lia.
  Qed.
End NR.

Lemma nr_refines cs data p size img runs :
  yields cs data p druns_start runs -> zlen img <= TWO64 -> 0 <= size <= U64_MAX -> Forall (run_ok img) runs ->
  refines nr_read nr_seek (nr_inv cs data p size runs) nr_stream_position (good img true) (content img size runs) size.
Proof.
  intros Hy Himg Hsize Hruns. split.
  - intros s (rest & [_ H _ _ _ _]). exact H.
  - intros s d n Hi Hg Hn. destruct (nr_read_ok _ _ _ _ _ _ true Hy Himg Hsize Hruns s n d Hi Hg Hn)
      as (d' & v' & out & E & H1 & H2 & H3 & [[-> H4]|(? & _)]); [|discriminate]. eauto 10.
  - intros s d sf (rest & Hi) Hg Ha. destruct (nr_seek_ok _ _ _ _ _ _ true Hy Hsize Hruns s rest sf d Hi Hg Ha)
      as (d' & v' & out & E & H1 & H3 & [(Hq & -> & Hp & rest' & Hi' & _)|(Hq & -> & ->)]).
    + exists d', v'. split; auto. split; [exists rest'; auto|]. auto.
    + exists d', s. split; auto. split; [exists rest; auto|]. auto.
Qed.

(** ** Extents and runs *)
Lemma runs_of_size cs l : runs_size (map (run_of cs) l) = extents_size cs l.
Proof. induction l; cbn; auto. now rewrite IHl. Qed.

Lemma extents_size_app cs a b : extents_size cs (a ++ b) = extents_size cs a + extents_size cs b.
Proof. induction a; cbn [extents_size app]; lia. Qed.

Lemma content_of cs img l size : content img size (map (run_of cs) l) = file_content cs img l size.
Proof.
  unfold content, file_content, cat. rewrite map_map. do 2 f_equal. apply map_ext. intros [[lcn|] c]; reflexivity.
Qed.

Lemma valid_runs cs img l : valid_extents cs img l -> Forall (run_ok img) (map (run_of cs) l).
Proof.
  intros [Hcs Himg Hf Hd _]. apply Forall_forall. intros r Hr. apply in_map_iff in Hr as (e & <- & He).
  rewrite Forall_forall in *. destruct (Hf e He) as (F1 & F2 & F3). destruct (Hd e He) as (D1 & D2).
  unfold run_ok, run_of. cbn [r_sp r_alloc r_pos]. split; auto. split; [nia|]. destruct (e_lcn e); auto. split; [nia|lia].
Qed.

Lemma valid_yields cs img l enc p : valid_extents cs img l -> encodes 0 l enc -> yields cs enc p druns_start (map (run_of cs) l).
Proof.
  intros [Hcs Himg Hf Hd Hdist] He.
  apply (encodes_yields cs p Hcs 0 l enc He []); auto. unfold U64_MAX; lia.
Qed.

Section Extents.
  Context (cs : Z) (img : list Z) (l : list extent) (enc : list Z) (p : position) (size : Z).
  Context (Hv : valid_extents cs img l) (He : encodes 0 l enc) (Hsize : 0 <= size <= U64_MAX).
  Notation runs := (map (run_of cs) l).
  Notation Inv := (nr_inv cs enc p size runs).

  Lemma nr_extents_refines : refines nr_read nr_seek Inv nr_stream_position (good img true) (file_content cs img l size) size.
  Proof. rewrite <- content_of. apply nr_refines; auto using valid_runs. - eapply valid_yields; eauto. - apply Hv. Qed.

  Lemma nr_extents_new : exists v, nr_new cs enc p size = Ok v /\ Inv v /\ nr_stream_position v = 0 /\
     inside nr_ops v /\ exists rest, nr_inv_at cs enc p size runs v rest /\ at_pos nr_ops runs 0 v rest.
  Proof.
    destruct (nr_new_ok cs enc p size img runs (valid_yields _ _ _ _ p Hv He) (valid_runs _ _ _ Hv)) as (v & E & H1 & H2 & H3 & H4).
    exists v. split; auto. split; [exists (tl runs); auto|]. split; auto. split; auto. eauto.
  Qed.


  Lemma extents_size_nonneg m : 1 <= cs -> Forall (extent_fits cs) m -> 0 <= extents_size cs m.
  Proof. intros Hcs. induction 1 as [|e t (He1 & _) _ IH]; cbn [extents_size]; [lia|nia]. Qed.

  (** Exactness of the position reported by an aligned reader. *)
  Lemma disk_position_app l1 l2 q : 0 <= q -> 1 <= cs -> Forall (extent_fits cs) l1 ->
    disk_position cs (l1 ++ l2) (extents_size cs l1 + q) = disk_position cs l2 q.
  Proof.
    intros Hq Hcs. induction 1 as [|e t (He1 & He2 & _) Ht IH]; cbn [app extents_size disk_position]; [now rewrite Z.add_0_l|].
    pose proof (extents_size_nonneg t Hcs Ht).
    replace (_ <? _) with false by nia. rewrite <- IH. f_equal. lia.
  Qed.

  Lemma map_split {A B} (f : A -> B) m x a b : map f m = a ++ x :: b ->
    exists m1 e m2, m = m1 ++ e :: m2 /\ map f m1 = a /\ f e = x /\ map f m2 = b.
  Proof.
    intros H. apply map_eq_app in H as (m1 & m2 & -> & H1 & H2). destruct m2 as [|e m2]; [discriminate|].
    injection H2 as H2 H3. exists m1, e, m2. auto.
  Qed.

  Lemma at_pos_data_position v q rest : at_pos nr_ops runs q v rest -> inside nr_ops v -> 0 <= q ->
    nr_data_position v = disk_position cs l q.
  Proof.
    intros Hat Hin Hq. unfold nr_data_position, ss_data_position. destruct Hv as [Hcs Himg Hf Hd _]. inversion Hat; subst.
    - cbn [so_ss nr_ops] in H0. rewrite H0. apply map_split in H as (m1 & e & m2 & -> & <- & <- & <-).
      unfold inside in Hin. cbn [so_ss nr_ops] in Hin. rewrite H0 in Hin. cbn [r_sp r_alloc] in Hin.
      rewrite runs_of_size. apply Forall_app in Hf as (Hf1 & Hf2). rewrite disk_position_app by (auto; lia).
      cbn [disk_position]. unfold run_of in *. cbn [r_alloc r_pos] in *. replace (sp <? _) with true by lia.
      unfold run_data_position. cbn [r_sp r_alloc r_pos]. replace (sp <=? _) with true by lia.
      destruct (e_lcn e) as [lcn|] eqn:El; [|reflexivity]. cbn [pos_add].
      apply Forall_app in Hd as (_ & Hd). apply Forall_inv in Hd. destruct Hd as (_ & D). rewrite El in D.
      apply Forall_inv in Hf2. destruct Hf2 as (F1 & F2 & F3). rewrite El in F3.
      destruct Hv as [_ _ _ _ Hdist].
      assert (lcn <> 0).
      { clear -Hdist El. revert Hdist. generalize 0 at 1. induction m1 as [|[[x|] c] m1 IH]; cbn [app lcns_distinct]; intros z Hz.
        - destruct e as [[x|] c]; cbn in *; [|discriminate]. injection El as ->. tauto.
        - apply (IH x). tauto.
        - now apply (IH z). }
      rewrite Z.mod_small by (unfold TWO64 in *; nia). unfold pos_new. replace (_ =? 0) with false by nia. reflexivity.
    - cbn [so_ss nr_ops] in H. rewrite H. rewrite runs_of_size in H0.
      replace l with (l ++ []) by apply app_nil_r. replace q with (extents_size cs l + (q - extents_size cs l)) by lia.
      rewrite disk_position_app by (auto; lia). reflexivity.
  Qed.

  Lemma at_pos_inside v q rest : at_pos nr_ops runs q v rest -> ~ extent_end cs l q -> inside nr_ops v.
  Proof.
    intros Hat Hn. unfold inside. cbn [so_ss nr_ops]. inversion Hat; subst; cbn [so_ss nr_ops] in H0, H; [|now rewrite H].
    rewrite H0. cbn [r_sp r_alloc]. destruct (Z_lt_le_dec sp (r_alloc r)) as [|Hge]; auto. exfalso. apply Hn.
    apply map_split in H as (m1 & e & m2 & -> & <- & <- & <-). exists m1, e, m2. split; auto.
    rewrite extents_size_app, runs_of_size. cbn [extents_size]. cbn [run_of r_alloc] in *. lia.
  Qed.

  Lemma nr_exec_inv (strict : bool) ops : forall v d d' v', Inv v -> good img strict d -> Forall op_ok ops ->
    reader_exec nr_read nr_seek v d ops = (d', v') -> Inv v' /\ good img strict d'.
  Proof.
    pose proof (valid_yields cs img l enc p Hv He) as Hy. pose proof (valid_runs _ _ _ Hv) as Hr. pose proof (ve_img _ _ _ Hv) as Hi.
    induction ops as [|o ops IH]; intros v d d' v' HI Hg Ho H; cbn [reader_exec] in H.
    - injection H as <- <-. auto.
    - inversion Ho; subst. destruct o as [n|sf]; cbn [reader_step op_ok] in *.
      + destruct (nr_read_ok cs enc p size img runs strict Hy Hi Hsize Hr v n d HI Hg ltac:(lia)) as (d1 & v1 & out & E & G & I1 & _).
        rewrite E in H. eapply IH; eauto.
      + destruct HI as (rest & HI).
        destruct (nr_seek_ok cs enc p size img runs strict Hy Hsize Hr v rest sf d HI Hg H2)
          as (d1 & v1 & out & E & G & _ & [(_ & _ & _ & rest' & I1 & _)|(_ & _ & ->)]);
        rewrite E in H; eapply IH; eauto; eexists; eauto.
  Qed.

  (** ** The property lemmas: any history, then one more operation. *)
  Lemma nr_history_read ops d d1 v v1 n : faultless d -> d_img d = img -> Forall op_ok ops -> 0 <= n ->
    nr_new cs enc p size = Ok v -> reader_exec nr_read nr_seek v d ops = (d1, v1) ->
    exists d2 v2, nr_read v1 n d1 = (d2, (v2, Ok (ztake n (zdrop (nr_stream_position v1) (file_content cs img l size))))) /\
      nr_stream_position v2 = nr_stream_position v1 + zlen (ztake n (zdrop (nr_stream_position v1) (file_content cs img l size))).
  Proof.
    intros Hf Hi Ho Hn Hnew Hex. destruct nr_extents_new as (v0 & E0 & I0 & _). assert (v0 = v) by congruence. subst v0.
    destruct (nr_exec_inv true ops v d d1 v1) as (I1 & G1); auto. { split; auto. }
    destruct (rf_read _ _ _ _ _ _ _ nr_extents_refines v1 d1 n I1 G1 Hn) as (d2 & v2 & E & _ & _ & Hp). eauto.
  Qed.

  Lemma nr_history_seek ops d d1 v v1 sf : d_img d = img -> Forall op_ok ops -> seek_arg_ok sf ->
    nr_new cs enc p size = Ok v -> reader_exec nr_read nr_seek v d ops = (d1, v1) ->
    let q := seek_target size (nr_stream_position v1) sf in
    (0 <= q <= U64_MAX -> exists d2 v2, nr_seek v1 sf d1 = (d2, (v2, Ok q)) /\ nr_stream_position v2 = q) /\
    (~ 0 <= q <= U64_MAX -> exists d2, nr_seek v1 sf d1 = (d2, (v1, Err (EIo InvalidInput)))).
  Proof.
    intros Hi Ho Hn Hnew Hex q. destruct nr_extents_new as (v0 & E0 & I0 & _). assert (v0 = v) by congruence. subst v0.
    destruct (nr_exec_inv false ops v d d1 v1) as ((rest & I1) & G1); auto. { split; auto. discriminate. }
    destruct (nr_seek_ok cs enc p size img (map (run_of cs) l) false (valid_yields _ _ _ _ p Hv He) Hsize (valid_runs _ _ _ Hv) v1 rest sf d1 I1 G1 Hn)
      as (d2 & v2 & out & E & _ & _ & [(Hq & -> & Hp & _)|(Hq & -> & ->)]); fold q in Hq |- *; fold q in E || idtac; split; intros; try tauto; eauto.
  Qed.

  Lemma nr_history_cursor ops d : faultless d -> d_img d = img -> Forall op_ok ops ->
    exists v, nr_new cs enc p size = Ok v /\ nr_stream_position v = 0 /\
      reader_run nr_read nr_seek v d ops = cursor_run (file_content cs img l size) size 0 ops.
  Proof.
    intros Hf Hi Ho. destruct nr_extents_new as (v & E & I0 & P0 & _). exists v. split; auto. split; auto.
    rewrite <- P0. eapply refines_history; [apply nr_extents_refines|auto|split; auto|auto].
  Qed.

  (** Data position after a seek that moved, or in general when not at the end of an extent. *)
  Lemma nr_history_position ops d d1 v v1 : d_img d = img -> Forall op_ok ops ->
    nr_new cs enc p size = Ok v -> reader_exec nr_read nr_seek v d ops = (d1, v1) ->
    (nr_stream_position v1 < size -> ~ extent_end cs l (nr_stream_position v1) ->
       nr_data_position v1 = disk_position cs l (nr_stream_position v1)) /\
    (forall sf d2 v2 q, seek_arg_ok sf -> nr_seek v1 sf d1 = (d2, (v2, Ok q)) -> q <> nr_stream_position v1 ->
       nr_stream_position v1 < size \/ q < nr_stream_position v1 ->
       nr_data_position v2 = disk_position cs l q).
  Proof.
    intros Hi Ho Hnew Hex. destruct nr_extents_new as (v0 & E0 & I0 & _). assert (v0 = v) by congruence. subst v0.
    destruct (nr_exec_inv false ops v d d1 v1) as ((rest & I1) & G1); auto. { split; auto. discriminate. }
    split.
    - intros Hlt Hne. pose proof I1 as [_ K2 _ _ _ [K|K]]; [unfold pos in K; cbn in K; unfold nr_stream_position in *; lia|].
      eapply at_pos_data_position; [exact K| |apply K2]. eapply at_pos_inside; eauto.
    - intros sf d2 v2 q Ha Hs Hne Hor.
      destruct (nr_seek_ok cs enc p size img (map (run_of cs) l) false (valid_yields _ _ _ _ p Hv He) Hsize (valid_runs _ _ _ Hv) v1 rest sf d1 I1 G1 Ha)
        as (d2' & v2' & out & E & _ & _ & [(Hq & -> & Hp & rest' & I2 & Hat & Hin)|(Hq & -> & ->)]); rewrite E in Hs; [|discriminate].
      injection Hs as -> -> Hq2. rewrite Hq2 in *.
      eapply at_pos_data_position; [apply Hat| |lia].
      + destruct Hor as [Hlt|Hlt]; [left|right; auto]. destruct I1 as [_ K2 _ _ _ [K|K]]; [unfold pos in K; cbn in K; unfold nr_stream_position in *; lia|exact K].
      + apply Hin. auto.
  Qed.

  Lemma nr_fresh_position v : nr_new cs enc p size = Ok v -> nr_data_position v = disk_position cs l 0.
  Proof.
    intros Hn. destruct nr_extents_new as (v0 & E0 & _ & _ & Hin & rest & _ & Hat). assert (v0 = v) by congruence. subst v0.
    eapply at_pos_data_position; eauto. lia.
  Qed.

  (** Arbitrary device faults. *)
  Lemma nr_history_faults ops d d1 v v1 n : d_img d = img -> Forall op_ok ops -> 0 <= n ->
    nr_new cs enc p size = Ok v -> reader_exec nr_read nr_seek v d ops = (d1, v1) ->
    let bs := ztake n (zdrop (nr_stream_position v1) (file_content cs img l size)) in
    exists d2 v2 out, nr_read v1 n d1 = (d2, (v2, out)) /\
     ((out = Ok bs /\ nr_stream_position v2 = nr_stream_position v1 + zlen bs) \/
      ((exists k, out = Err (EIo k)) /\ nr_stream_position v1 <= nr_stream_position v2 <= nr_stream_position v1 + zlen bs)).
  Proof.
    intros Hi Ho Hn Hnew Hex bs. destruct nr_extents_new as (v0 & E0 & I0 & _). assert (v0 = v) by congruence. subst v0.
    destruct (nr_exec_inv false ops v d d1 v1) as (I1 & G1); auto. { split; auto. discriminate. }
    destruct (nr_read_ok cs enc p size img (map (run_of cs) l) false (valid_yields _ _ _ _ p Hv He) (ve_img _ _ _ Hv) Hsize (valid_runs _ _ _ Hv) v1 n d1 I1 G1 Hn)
      as (d2 & v2 & out & E & _ & _ & _ & Hc). rewrite content_of in Hc. fold bs in Hc. exists d2, v2, out. split; auto.
    destruct Hc as [?|(_ & ? & ?)]; auto.
  Qed.

  Lemma nr_history_read_exact ops d d1 v v1 n : faultless d -> d_img d = img -> Forall op_ok ops -> 0 <= n ->
    nr_new cs enc p size = Ok v -> reader_exec nr_read nr_seek v d ops = (d1, v1) ->
    let c := file_content cs img l size in
    exists d2 v2 out, nr_read_exact v1 n d1 = (d2, (v2, out)) /\
      (nr_stream_position v1 + n <= zlen c -> out = Ok (slice c (nr_stream_position v1) (nr_stream_position v1 + n)) /\
         nr_stream_position v2 = nr_stream_position v1 + n) /\
      (zlen c < nr_stream_position v1 + n -> 0 < n -> out = Err (EIo UnexpectedEof)).
  Proof.
    intros Hf Hi Ho Hn Hnew Hex c. destruct nr_extents_new as (v0 & E0 & I0 & _). assert (v0 = v) by congruence. subst v0.
    destruct (nr_exec_inv true ops v d d1 v1) as (I1 & G1); auto. { split; auto. }
    destruct (refines_read_exact _ _ _ _ _ _ _ nr_extents_refines v1 d1 n I1 G1 Hn) as (d2 & v2 & _ & _ & Hc). fold c in Hc.
    unfold nr_read_exact, slice. replace (nr_stream_position v1 + n - nr_stream_position v1) with n by lia.
    destruct Hc as [(H1 & -> & H2)|[(H1 & H2 & ->)|(-> & -> & H2)]]; do 3 eexists; (split; [reflexivity|]); split; intros; auto; try lia.
    split; [|lia]. now rewrite ztake_0 by lia.
  Qed.
  (** ** Interruptions before the first byte is transferred. *)
  Lemma nr_read_interrupted v d n r pp t : ss_run (nv_ss v) = Some r -> r_pos r = Some pp -> 0 <= r_sp r < r_alloc r ->
    nr_stream_position v < ss_size (nv_ss v) -> pp + r_sp r <= U64_MAX -> 0 < n -> Forall seek_ok (d_seeks d) ->
    d_reads d = RErr Interrupted :: t ->
    nr_read v n d = (mkDev (d_img d) (pp + r_sp r) t (tl (d_seeks d)), (v, Err (EIo Interrupted))).
  Proof.
    intros Hr Hp Hsp Hpos Hmax Hn Hs Hrd. unfold nr_read, nr_fuel, nr_stream_position in *.
    replace (length (d_reads d) + 3 * length (nv_data v) + 6)%nat with (Datatypes.S (length (d_reads d) + 3 * length (nv_data v) + 5)) by lia.
    cbn [stream_read_loop]. change (zlen (@nil Z)) with 0. replace (n <=? 0) with false by lia.
    cbn [so_ss nr_ops]. unfold ss_read_data_run. rewrite Hr. replace (r_alloc r <=? r_sp r) with false by lia.
    replace (Z.max 0 _ =? 0) with false by lia. unfold run_read. unfold run_remaining.
    replace (r_alloc r - r_sp r =? 0) with false by lia. rewrite Hp. replace (U64_MAX <? _) with false by lia.
    assert (E : dev_seek (pp + r_sp r) d = (mkDev (d_img d) (pp + r_sp r) (d_reads d) (tl (d_seeks d)), Ok tt)).
    { unfold dev_seek. destruct (d_seeks d) as [|[e|] tl0]; auto. apply Forall_inv in Hs. discriminate. }
    rewrite E. unfold dev_read. cbn [d_reads d_img d_pos d_seeks]. rewrite Hrd. cbn [so_set nr_ops].
    replace (Z.max 0 (r_alloc r - r_sp r) =? 0) with false by lia.
    f_equal. f_equal. rewrite <- Hr. destruct v as [? ? ? ? [? ? ?]]. reflexivity.
  Qed.

  Lemma nr_history_interrupted ops d d1 v v1 n k tail : d_img d = img -> Forall op_ok ops -> 0 <= n ->
    nr_new cs enc p size = Ok v -> reader_exec nr_read nr_seek v d ops = (d1, v1) ->
    d_reads d1 = repeat (RErr Interrupted) k ++ tail -> Forall read_ok tail -> Forall seek_ok (d_seeks d1) ->
    nr_stream_position v1 < size -> ~ extent_end cs l (nr_stream_position v1) ->
    disk_position cs l (nr_stream_position v1) <> None ->
    let c := file_content cs img l size in
    exists d2 v2 out, nr_read_exact v1 n d1 = (d2, (v2, out)) /\
      (nr_stream_position v1 + n <= zlen c -> out = Ok (slice c (nr_stream_position v1) (nr_stream_position v1 + n)) /\
         nr_stream_position v2 = nr_stream_position v1 + n) /\
      (zlen c < nr_stream_position v1 + n -> 0 < n -> out = Err (EIo UnexpectedEof)).
  Proof.
    intros Hi Ho Hn Hnew Hex Hrd Ht Hsk Hlt Hne Hdp c.
    destruct (nr_history_position ops d d1 v v1 Hi Ho Hnew Hex) as (Hpos & _). specialize (Hpos Hlt Hne).
    destruct nr_extents_new as (v0 & E0 & I0 & _). assert (v0 = v) by congruence. subst v0.
    destruct (nr_exec_inv false ops v d d1 v1) as (I1 & G1 & _); auto. { split; auto. discriminate. }
    destruct I1 as (rest & I1).
    assert (Hin : inside nr_ops v1).
    { destruct I1 as [_ K2 _ _ _ [K|K]]; [unfold pos in K; cbn in K; unfold nr_stream_position in *; lia|]. eapply at_pos_inside; eauto. }
    assert (Hsz : ss_size (nv_ss v1) = size) by apply I1.
    assert (Hsane : run_sane (ss_run (nv_ss v1))) by apply I1.
    unfold nr_data_position, ss_data_position in Hpos. unfold inside in Hin. cbn [so_ss nr_ops] in Hin.
    destruct (ss_run (nv_ss v1)) as [r|] eqn:Er; [|congruence].
    unfold run_data_position in Hpos. cbn [run_sane] in Hsane. replace (r_sp r <=? r_alloc r) with true in Hpos by lia.
    destruct (r_pos r) as [pp|] eqn:Epp; [|cbn in Hpos; congruence].
    assert (Hmax : pp + r_sp r <= U64_MAX).
    { destruct I1 as [_ K2 _ _ _ [K|K]]; [unfold pos in K; cbn in K; unfold nr_stream_position in *; lia|].
      inversion K; subst; cbn [so_ss nr_ops] in *; [|congruence].
      rewrite Er in H0. injection H0 as Hr0. subst r. cbn [r_pos r_alloc r_sp] in *.
      pose proof (valid_runs _ _ _ Hv) as Hruns. rewrite H in Hruns. apply Forall_app in Hruns as (_ & Hruns). apply Forall_inv in Hruns.
      destruct Hruns as (_ & _ & Hb). rewrite Epp in Hb. pose proof (ve_img _ _ _ Hv). unfold TWO64, U64_MAX in *. lia. }
    assert (Hloop : forall k d1, d_img d1 = img -> d_reads d1 = repeat (RErr Interrupted) k ++ tail -> Forall seek_ok (d_seeks d1) -> 0 < n ->
      forall fuel, (k + 2 <= fuel)%nat -> exists d3 fuel', faultless d3 /\ d_img d3 = img /\ (2 <= fuel')%nat /\
        rs_read_exact_loop nr_read fuel v1 n [] d1 = rs_read_exact_loop nr_read fuel' v1 n [] d3).
    { clear Hrd Hsk G1 Hex d1. induction k0 as [|k0 IH]; intros d1 Hi1 Hrd Hsk Hn0 fuel Hf.
      - exists d1, fuel. cbn [repeat app] in Hrd. split; [split; [rewrite Hrd|]; auto|]. auto.
      - destruct fuel as [|fuel]; [lia|]. cbn [rs_read_exact_loop]. replace (n <=? 0) with false by lia.
        rewrite (nr_read_interrupted v1 d1 n r pp (repeat (RErr Interrupted) k0 ++ tail)); auto; try lia.
        apply IH; cbn [d_img d_reads d_seeks]; auto; try lia; destruct (d_seeks d1); auto; cbn; now apply Forall_inv_tail in Hsk. }
    destruct (Z.eq_dec n 0) as [->|Hn0].
    - unfold nr_read_exact, rs_read_exact. destruct (_ + 1)%nat; cbn [rs_read_exact_loop]; (do 3 eexists; split; [reflexivity|]);
      (split; [intros; split; [|lia]|lia]); unfold slice; rewrite ztake_0 by lia; auto.
    - destruct (Hloop k d1 G1 Hrd Hsk ltac:(lia) (Z.to_nat n + length (d_reads d1) + length (d_seeks d1) + 1)%nat) as (d3 & fuel' & F3 & I3 & Hf3 & E3).
      { rewrite Hrd, app_length, repeat_length. lia. }
      unfold nr_read_exact, rs_read_exact. rewrite E3.
      destruct (refines_read_exact_loop _ _ _ _ _ _ _ nr_extents_refines fuel' v1 d3 n [] ltac:(exists rest; auto) ltac:(split; auto) Hn Hf3) as (d2 & v2 & _ & _ & Hc).
      fold c in Hc. unfold slice. replace (nr_stream_position v1 + n - nr_stream_position v1) with n by lia. cbn [app] in Hc.
      destruct Hc as [(H1 & -> & H2)|[(H1 & H2 & ->)|(-> & _)]]; try lia; do 3 eexists; (split; [reflexivity|]); split; intros; auto; lia.
  Qed.
End Extents.

(** C38 *)
Lemma nr_interleaved (cs : Z) (img : list Z) (l : nat -> list extent) (enc : nat -> list Z) (p : nat -> position) (size : nat -> Z) :
  (forall i, valid_extents cs img (l i)) -> (forall i, encodes 0 (l i) (enc i)) -> (forall i, 0 <= size i <= U64_MAX) ->
  forall f d ops i, (forall i, nr_new cs (enc i) (p i) (size i) = Ok (f i)) -> faultless d -> d_img d = img ->
  Forall (fun x => op_ok (snd x)) ops ->
  of_reader i (multi_run nr_read nr_seek f d ops) = cursor_run (file_content cs img (l i) (size i)) (size i) 0 (of_reader i ops).
Proof.
  intros Hv He Hs f d ops i Hn Hf Hi Ho.
  assert (Hinv : forall i, nr_inv cs (enc i) (p i) (size i) (map (run_of cs) (l i)) (f i) /\ nr_stream_position (f i) = 0).
  { intros j. destruct (nr_extents_new cs img (l j) (enc j) (p j) (size j) (Hv j) (He j)) as (v & E & I0 & P0 & _).
    rewrite Hn in E. injection E as <-. auto. }
  rewrite (multi_refines nr_read nr_seek (fun i => nr_inv cs (enc i) (p i) (size i) (map (run_of cs) (l i))) nr_stream_position (good img true)
    (fun i => file_content cs img (l i) (size i)) size).
  - now rewrite (proj2 (Hinv i)).
  - intros j. apply nr_extents_refines; auto.
  - intros j. apply Hinv.
  - split; auto.
  - auto.
Qed.

Lemma cluster_zero_lost : exists cs enc img v d d' v',
  1 <= cs /\ encodes 0 [mkExtent (Some 0) 1] enc /\ faultless d /\ d_img d = img /\ zlen img = cs /\
  nr_new cs enc None cs = Ok v /\ nr_read v 2 d = (d', (v', Ok [0; 0])) /\
  ztake 2 (file_content cs img [mkExtent (Some 0) 1] cs) = [235; 235].
Proof.
  exists 512, [17; 1; 0; 0], (zrepeat 235 512). do 4 eexists. split; [lia|].
  split. { apply (enc_data 0 0 1 [1] [0] [] [0]); [| |constructor].
           - split; [apply bytes_okb_ok; reflexivity|vm_compute; repeat split; discriminate].
           - split; [apply bytes_okb_ok; reflexivity|vm_compute; repeat split; discriminate]. }
  split; [|split; [|split; [vm_compute; reflexivity|split; [vm_compute; reflexivity|split; [|vm_compute; reflexivity]]]]].
  2: { instantiate (1 := mkDev (zrepeat 235 512) 0 [] []). reflexivity. }
  - split; constructor.
  - vm_compute. reflexivity.
Qed.
