(** * Proofs for C78. *)
From Coq Require Import Lia.
From Verif Require Import Base Dev Types Record DataRuns Stream NonResident Resident BootSector Attribute File Structured AttrList Index Volume
  Spec SpecCost BaseProofs DevProofs DataRunsProofs StreamProofs ReaderProofs NonResidentProofs EvolveProofs StreamExamples.

Lemma skipn_twice {A} i : forall j (l : list A), skipn j (skipn i l) = skipn (i + j) l.
Proof. induction i as [|i IH]; intros j l; [reflexivity|]. destruct l as [|x t]; [destruct j; reflexivity|apply IH]. Qed.
Lemma within_0 d d' : d_seeks d' = d_seeks d -> seeks_within 0 d d'.
Proof. exists 0%nat. split; [lia|exact H]. Qed.
Lemma within_trans a b d1 d2 d3 : seeks_within a d1 d2 -> seeks_within b d2 d3 -> seeks_within (a + b) d1 d3.
Proof. intros (i & Hi & E1) (j & Hj & E2). exists (i + j)%nat. split; [lia|]. rewrite E2, E1. apply skipn_twice. Qed.
Lemma within_le a b d1 d2 : (a <= b)%nat -> seeks_within a d1 d2 -> seeks_within b d1 d2.
Proof. intros H (i & Hi & E). exists i. split; [lia|exact E]. Qed.
Lemma within_seek n d : seeks_within 1 d (fst (dev_seek n d)).
Proof. exists 1%nat. split; [lia|]. unfold dev_seek. destruct (d_seeks d) as [|[e|] t]; reflexivity. Qed.
Lemma seeks_read n d : d_seeks (fst (dev_read n d)) = d_seeks d.
Proof. unfold dev_read. destruct (d_reads d) as [|[k|e] t]; reflexivity. Qed.
Lemma seeks_exact n d : d_seeks (fst (dev_read_exact n d)) = d_seeks d.
Proof.
  unfold dev_read_exact. generalize (length (d_reads d) + 2)%nat (@nil Z). intros k. revert n d.
  induction k as [|k IH]; intros n d acc; cbn [dev_read_exact_loop]; destruct (n <=? 0); try reflexivity.
  pose proof (seeks_read n d) as H. destruct (dev_read n d) as [d1 [[|x t]|[]| |]]; cbn [fst] in *; try exact H; try (rewrite IH; exact H).
  destruct k0; try exact H. rewrite IH. exact H.
Qed.
Lemma within_bind {A B} a b (m : M A) (f : A -> M B) d : (forall d, seeks_within a d (fst (m d))) -> (forall x d, seeks_within b d (fst (f x d))) -> seeks_within (a + b) d (fst (mbind m f d)).
Proof.
  intros H1 H2. unfold mbind. specialize (H1 d). destruct (m d) as [d1 [x|e| |]]; cbn [fst] in *; try (refine (within_le a _ _ _ _ H1); lia).
  exact (within_trans _ _ _ _ _ H1 (H2 x d1)).
Qed.
Lemma within_lift {A B} k (r : res A) (f : A -> M B) d : (forall x d, seeks_within k d (fst (f x d))) -> seeks_within k d (fst (mbind (mlift r) f d)).
Proof. intros H. refine (within_bind 0 k (mlift r) f d _ H). intros d1. apply within_0. reflexivity. Qed.

Lemma cost_new d : seeks_within 1 d (fst (ntfs_new d)).
Proof.
  refine (within_bind 1 0 _ _ d (within_seek 0) _). intros _ d1. refine (within_bind 0 0 _ _ d1 _ _).
  - intros d2. apply within_0, seeks_exact.
  - intros b d2. apply within_0. reflexivity.
Qed.
Lemma cost_file_new nt p n d : seeks_within 1 d (fst (file_new nt p n d)).
Proof.
  refine (within_bind 1 0 _ _ d (within_seek p) _). intros _ d1. refine (within_bind 0 0 _ _ d1 _ _).
  - intros d2. apply within_0, seeks_exact.
  - intros b d2. apply within_0. reflexivity.
Qed.

(** Values: seeking does not touch the device. *)
Lemma still_nr_seek_loop k : forall v st n d, fst (stream_seek_loop nr_ops k v st n d) = d.
Proof.
  induction k as [|k IH]; intros v st n d; cbn [stream_seek_loop]; destruct (n <=? 0); try reflexivity.
  destruct (ss_seek_data_run _ _ _) as [[ss1 l1] [[|]|e| |]]; try reflexivity. cbn [so_advance nr_ops]. destruct (nr_next_data_run _) as [v1 [[|]|e| |]]; try reflexivity. apply IH.
Qed.
Lemma still_nr_seek v pos d : fst (nr_seek v pos d) = d.
Proof.
  assert (F : forall k s st n p, fst (stream_seek_finish nr_ops p (stream_seek_loop nr_ops k s st n d)) = d).
  { intros k s st n p. pose proof (still_nr_seek_loop k s st n d) as H. destruct (stream_seek_loop nr_ops k s st n d) as [d1 [s1 [u|e| |]]]; cbn [fst] in H; subst d1; cbn [stream_seek_finish]; try reflexivity.
    destruct p; try reflexivity. cbv zeta. destruct (U64_MAX <? _); reflexivity. }
  unfold nr_seek, stream_seek. destruct (optimize_seek _ _ _) as [[n|n|n]|e| |]; try reflexivity.
  - cbn [so_rewind nr_ops]. destruct (nr_rewind v) as [v1 [u|e| |]]; try reflexivity. apply F.
  - destruct (0 <=? n); [|reflexivity]. apply F.
Qed.
Lemma still_sv_seek v pos d : fst (sv_seek v pos d) = d.
Proof.
  destruct v as [r|r]; cbn [sv_seek].
  - unfold res_seek. destruct (seek_contiguous _ _ _). reflexivity.
  - pose proof (still_nr_seek r pos d) as H. destruct (nr_seek r pos d) as [d1 [r1 x]]. exact H.
Qed.
Lemma still_res_read r n d : fst (res_read r n d) = d.
Proof. unfold res_read. cbv zeta. destruct (_ =? 0); [reflexivity|]. destruct (idx_range _ _ _); reflexivity. Qed.

Lemma cost_file nt n d : seeks_within 2 d (fst (ntfs_file nt n d)).
Proof.
  assert (Z0 : forall d1, seeks_within 2 d1 d1) by (intros d1; exists 0%nat; split; [lia|reflexivity]).
  unfold ntfs_file. destruct (checked_mul64 _ _) as [o|]; [|apply Z0]. destruct (mft_position nt) as [mp|]; [|apply Z0].
  refine (within_bind 1 1 _ _ d (cost_file_new nt mp 0) _). intros mft d1. apply within_lift. intros a d2. apply within_lift. intros v d3.
  assert (Z1 : seeks_within 1 d3 d3) by (exists 0%nat; split; [lia|reflexivity]).
  pose proof (still_sv_seek v (SStart o) d3) as H. destruct (sv_seek v (SStart o) d3) as [d4 [v1 [q|e| |]]]; cbn [fst] in *; subst d4; try exact Z1.
  destruct (sv_data_position v1) as [p|]; [apply cost_file_new|exact Z1].
Qed.

(** Reading: an extent costs one seek, a read that comes short another one. *)
Section Reading.
  Context (cs : Z) (data : list Z) (p : position) (img : list Z).
  Definition has_place (r : run) : bool := match r_pos r with Some _ => true | None => false end.
  Definition places (l : list run) : nat := length (filter has_place l).
  Definition held (r : run) : Prop := match r_pos r with Some q => 0 <= q /\ q + r_alloc r <= zlen img | None => True end.
  (** The next read may position the reader. *)
  Definition busy (s : stream_state) : bool :=
    match ss_run s with Some r => has_place r && (r_sp r <? r_alloc r) && (ss_pos s <? ss_size s) | None => false end.
  Definition current (s : stream_state) : Prop :=
    ss_pos s < ss_size s -> match ss_run s with Some r => 0 <= r_sp r /\ held r | None => True end.
  Definition pending (n : Z) (acc : list Z) (s : stream_state) : nat := if negb (n <=? zlen acc) && busy s then 1 else 0.

  Lemma pending_le n acc s : (pending n acc s <= 1)%nat.
  Proof. unfold pending. destruct (_ && _); lia. Qed.

  (** One step. *)
  Lemma cost_run s n d : current s -> 0 < n -> d_img d = img ->
    let '(d1, (s1, x)) := ss_read_data_run s n d in
    d_img d1 = img /\ current s1 /\ ss_size s1 = ss_size s /\
    exists j, d_seeks d1 = skipn j (d_seeks d) /\ (j <= if busy s then 1 else 0)%nat /\
      match x with
      | Ok bs => (j + length (d_reads d1) <= length (d_reads d))%nat \/ ((length (d_reads d1) <= length (d_reads d))%nat /\ bs <> [] /\ (zlen bs = n \/ busy s1 = false))
      | _ => (length (d_reads d1) <= length (d_reads d))%nat
      end /\ (busy s = false -> busy s1 = false).
  Proof.
    intros Hc Hn Hi. unfold ss_read_data_run, busy, current in *. cbv zeta.
    destruct (ss_run s) as [r|] eqn:Er.
    2:{ rewrite Er. splits; auto. exists 0%nat. splits; auto. }
    destruct (Z.leb_spec (r_alloc r) (r_sp r)) as [H1|H1].
    { rewrite Er. splits; auto. exists 0%nat. splits; auto. lia. }
    destruct (Z.eqb_spec (Z.max 0 (ss_size s - ss_pos s)) 0) as [H2|H2].
    { rewrite Er. splits; auto. exists 0%nat. splits; auto. lia. }
    assert (Hlt : ss_pos s < ss_size s) by lia. specialize (Hc Hlt). destruct Hc as (Hsp & Hheld).
    replace (r_sp r <? r_alloc r) with true by lia. replace (ss_pos s <? ss_size s) with true by lia. rewrite !andb_true_r.
    replace (Z.max 0 (ss_size s - ss_pos s)) with (ss_size s - ss_pos s) by lia.
    unfold run_read, run_remaining. replace (Z.max 0 (r_alloc r - r_sp r)) with (r_alloc r - r_sp r) by lia.
    replace (r_alloc r - r_sp r =? 0) with false by lia. cbv zeta. set (k := Z.min (Z.min n (ss_size s - ss_pos s)) (r_alloc r - r_sp r)).
    assert (Hk : 0 < k) by (subst k; lia). unfold has_place, held in *.
    destruct (r_pos r) as [q|] eqn:Ep.
    2:{ cbn [ss_run ss_pos ss_size r_pos r_sp r_alloc andb]. splits; auto. { intros _. lia. } exists 0%nat. splits; auto. }
    destruct (U64_MAX <? q + r_sp r).
    { cbn [ss_run ss_pos ss_size]. rewrite Ep. splits; auto. exists 0%nat. splits; auto. lia. }
    pose proof (within_seek (q + r_sp r) d) as W. destruct (dev_seek (q + r_sp r) d) as [d1 x1] eqn:E1. cbn [fst] in W. destruct W as (j & Hj & W).
    assert (Hr1 : d_reads d1 = d_reads d /\ d_img d1 = img /\ (forall u, x1 = Ok u -> d_pos d1 = q + r_sp r)).
    { unfold dev_seek in E1. destruct (d_seeks d) as [|[e|] t]; injection E1 as <- <-; cbn; splits; auto. discriminate. }
    destruct Hr1 as (Hr1 & Hi1 & Hp1). destruct x1 as [u|e| |].
    2,3,4:(cbn [ss_run ss_pos ss_size]; rewrite Ep; splits; auto; exists j; splits; auto; rewrite ?Hr1; lia).
    specialize (Hp1 u eq_refl). pose proof (seeks_read k d1) as W2.
    assert (Hav : zlen (ztake k (from_pos (d_pos d1) (d_img d1))) = k).
    { rewrite Hp1, Hi1. unfold from_pos. replace (q + r_sp r <? 0) with false by lia. rewrite zlen_ztake, zlen_zdrop. subst k. lia. }
    unfold dev_read in *. rewrite Hr1 in *. destruct (d_reads d) as [|[m|e] t] eqn:Ed; cbn [fst d_seeks] in W2.
    - cbn [d_img d_reads d_seeks ss_run ss_pos ss_size r_pos r_sp r_alloc andb]. rewrite Hav. splits; auto. { intros _. lia. }
      exists j. splits; auto; [|discriminate]. right. splits; auto. { intros K. rewrite K in Hav. change (zlen (@nil Z)) with 0 in Hav. lia. }
      destruct (Z.eq_dec k n) as [K|K]; [left; exact K|right]. subst k. lia.
    - pose proof (zlen_nonneg (ztake (Z.of_nat m + 1) (ztake k (from_pos (d_pos d1) (d_img d1))))) as Hnn.
      cbn [d_img d_reads d_seeks ss_run ss_pos ss_size r_pos r_sp r_alloc andb length]. splits; auto. { intros _. lia. }
      exists j. splits; auto; [|discriminate]. left. lia.
    - cbn [d_img d_reads d_seeks ss_run ss_pos ss_size length]. rewrite Ep. splits; auto. exists j. splits; auto; try lia; try discriminate.
  Qed.

  Lemma run_shape s n d d1 s1 bs r : current s -> 0 < n -> d_img d = img -> ss_run s = Some r -> ss_read_data_run s n d = (d1, (s1, Ok bs)) ->
    s1 = mkSS (Some (mkRun (r_pos r) (r_alloc r) (r_sp r + zlen bs))) (ss_pos s + zlen bs) (ss_size s) /\
    (r_sp r <= r_alloc r -> r_sp r + zlen bs <= r_alloc r) /\ (bs = [] -> r_alloc r <= r_sp r \/ ss_size s <= ss_pos s).
  Proof.
    intros Hc Hn Hi Er. unfold ss_read_data_run, current in *. rewrite Er in *. cbv zeta.
    assert (S0 : s = mkSS (Some (mkRun (r_pos r) (r_alloc r) (r_sp r + zlen (@nil Z)))) (ss_pos s + zlen (@nil Z)) (ss_size s)).
    { change (zlen (@nil Z)) with 0. rewrite !Z.add_0_r. destruct s as [x y z], r as [a b c]. cbn in *. now rewrite Er. }
    destruct (Z.leb_spec (r_alloc r) (r_sp r)) as [H1|H1].
    { intros [= <- <- <-]. split; [exact S0|]. change (zlen (@nil Z)) with 0. split; [lia|left; exact H1]. }
    destruct (Z.eqb_spec (Z.max 0 (ss_size s - ss_pos s)) 0) as [H2|H2].
    { intros [= <- <- <-]. split; [exact S0|]. change (zlen (@nil Z)) with 0. split; [lia|right; lia]. }
    assert (Hlt : ss_pos s < ss_size s) by lia. specialize (Hc Hlt). destruct Hc as (Hsp & Hheld).
    replace (Z.max 0 (ss_size s - ss_pos s)) with (ss_size s - ss_pos s) by lia.
    unfold run_read, run_remaining. replace (Z.max 0 (r_alloc r - r_sp r)) with (r_alloc r - r_sp r) by lia.
    replace (r_alloc r - r_sp r =? 0) with false by lia. cbv zeta. set (k := Z.min (Z.min n (ss_size s - ss_pos s)) (r_alloc r - r_sp r)).
    assert (Hk : 0 < k <= r_alloc r - r_sp r) by (subst k; lia). unfold held in *. clearbody k.
    assert (Hend : forall l : list Z, 0 < zlen l <= k -> (r_sp r <= r_alloc r -> r_sp r + zlen l <= r_alloc r) /\ (l = [] -> r_alloc r <= r_sp r \/ ss_size s <= ss_pos s)).
    { intros l Hl. split; [lia|]. intros ->. change (zlen (@nil Z)) with 0 in Hl. lia. }
    destruct (r_pos r) as [q|] eqn:Ep.
    2:{ intros [= <- <- <-]. assert (Hzk : zlen (zrepeat 0 k) = k) by (rewrite zlen_zrepeat; lia). split; [now rewrite Hzk|]. apply Hend. lia. }
    destruct (U64_MAX <? q + r_sp r); [discriminate|].
    destruct (dev_seek (q + r_sp r) d) as [d2 x1] eqn:E1.
    assert (Hr1 : d_img d2 = img /\ (forall u, x1 = Ok u -> d_pos d2 = q + r_sp r)).
    { unfold dev_seek in E1. destruct (d_seeks d) as [|[e|] t]; injection E1 as <- <-; cbn; splits; auto. discriminate. }
    destruct Hr1 as (Hi1 & Hp1). destruct x1 as [u|e| |]; try discriminate.
    specialize (Hp1 u eq_refl).
    assert (Hav : zlen (ztake k (from_pos (d_pos d2) (d_img d2))) = k).
    { rewrite Hp1, Hi1. unfold from_pos. replace (q + r_sp r <? 0) with false by lia. rewrite zlen_ztake, zlen_zdrop. lia. }
    unfold dev_read. destruct (d_reads d2) as [|[m|e] t]; [| |discriminate]; intros [= <- <- <-]; (split; [reflexivity|]); apply Hend; [lia|]. rewrite zlen_ztake, Hav. lia.
  Qed.

  (** Behind the end of the value nothing is read. *)
  Lemma cost_behind fuel : forall v n acc d, ss_size (nv_ss v) <= ss_pos (nv_ss v) -> fst (stream_read_loop nr_ops fuel v n acc d) = d.
  Proof.
    induction fuel as [|f IH]; intros v n acc d H; cbn [stream_read_loop]; destruct (n <=? zlen acc); try reflexivity.
    assert (E : ss_read_data_run (nv_ss v) (n - zlen acc) d = (d, (nv_ss v, Ok []))).
    { unfold ss_read_data_run. destruct (ss_run (nv_ss v)); [|reflexivity]. destruct (_ <=? _); [reflexivity|]. cbv zeta. replace (_ =? 0) with true by lia. reflexivity. }
    cbn [so_ss nr_ops]. rewrite E. cbn [so_advance nr_ops]. destruct (nr_next_data_run _) as [v1 [[|]|e| |]] eqn:E1; try reflexivity. apply IH.
    unfold nr_next_data_run in E1. destruct (druns_next _ _ _ _) as [s' [[r|x| |]|]]; injection E1 as <-; try discriminate. cbn. exact H.
  Qed.

  Fixpoint met (l : list run) (a b : Z) : nat :=
    match l with
    | [] => 0%nat
    | r :: t =>
        let here : nat := if has_place r && ((a <? b) && (a <? r_alloc r) && (0 <? b)) then 1%nat else 0%nat in
        (here + met t (a - r_alloc r)%Z (b - r_alloc r)%Z)%nat
    end.
  Lemma met_app l1 : forall l2 a b, met (l1 ++ l2) a b = (met l1 a b + met l2 (a - runs_size l1)%Z (b - runs_size l1)%Z)%nat.
  Proof.
    induction l1 as [|r t IH]; intros l2 a b; cbn [app met runs_size]; [now rewrite !Z.sub_0_r|]. rewrite IH. rewrite <- Nat.add_assoc. do 3 f_equal; lia.
  Qed.
  Lemma met_none l : forall a b, b <= a -> met l a b = 0%nat.
  Proof.
    induction l as [|r t IH]; intros a b H; cbn [met]; [reflexivity|]. rewrite IH by lia. replace (a <? b) with false by lia. rewrite !andb_false_l, andb_false_r. reflexivity.
  Qed.
  Lemma met_le l : forall a a' b, a <= a' -> (met l a' b <= met l a b)%nat.
  Proof.
    induction l as [|r t IH]; intros a a' b H; cbn [met]; [lia|]. specialize (IH (a - r_alloc r) (a' - r_alloc r) (b - r_alloc r) ltac:(lia)).
    destruct (has_place r); cbn [andb]; [|lia]. destruct ((a' <? b) && (a' <? r_alloc r) && (0 <? b)) eqn:E; [|destruct (_ && _); lia].
    replace ((a <? b) && (a <? r_alloc r) && (0 <? b)) with true by lia. lia.
  Qed.

  (** What is still to be met: the current run and those behind it. *)
  Definition ahead (s : stream_state) (rest : list run) (left : Z) : nat :=
    match ss_run s with Some r => met (r :: rest) (r_sp r) (r_sp r + left) | None => met rest 0 left end.

  Lemma cost_loop fuel : forall v n acc d rest, nr_rest cs data p v rest -> Forall (run_ok img) rest -> current (nv_ss v) -> d_img d = img ->
    match ss_run (nv_ss v) with Some r => r_sp r <= r_alloc r | None => True end ->
    let '(d', _) := stream_read_loop nr_ops fuel v n acc d in
    exists j, d_seeks d' = skipn j (d_seeks d) /\ (j + length (d_reads d') <= length (d_reads d) + ahead (nv_ss v) rest (n - zlen acc)%Z)%nat.
  Proof.
    induction fuel as [|f IH]; intros v n acc d rest Hr Hok Hc Hi Hle.
    { cbn [stream_read_loop]. destruct (n <=? zlen acc); (exists 0%nat; split; [reflexivity|lia]). }
    destruct (Z.le_gt_cases (ss_size (nv_ss v)) (ss_pos (nv_ss v))) as [Hsz|Hsz].
    { pose proof (cost_behind (S f) v n acc d Hsz) as H. destruct (stream_read_loop nr_ops (S f) v n acc d) as [d' y]. cbn [fst] in H. subst d'. exists 0%nat. split; [reflexivity|lia]. }
    cbn [stream_read_loop]. destruct (Z.leb_spec n (zlen acc)) as [Hn|Hn]; [exists 0%nat; split; [reflexivity|lia]|].
    pose proof (cost_run (nv_ss v) (n - zlen acc) d Hc ltac:(lia) Hi) as H. pose proof (fun d1 s1 bs r => run_shape (nv_ss v) (n - zlen acc) d d1 s1 bs r Hc ltac:(lia) Hi) as Hsh. cbn [so_ss nr_ops] in *.
    assert (Hnone : ss_run (nv_ss v) = None -> ss_read_data_run (nv_ss v) (n - zlen acc) d = (d, (nv_ss v, Ok []))) by (intros K; unfold ss_read_data_run; rewrite K; reflexivity).
    destruct (ss_read_data_run (nv_ss v) (n - zlen acc) d) as [d1 [s1 x]]. destruct H as (Hi1 & Hc1 & _ & j & Hj & Hjb & Hx & Hb).
    (* an access only where there is something to be met *)
    assert (Hmeet : ((if busy (nv_ss v) then 1 else 0) + (match ss_run (nv_ss v) with Some r => met rest (r_sp r - r_alloc r)%Z (r_sp r + (n - zlen acc) - r_alloc r)%Z | None => 0 end) <= ahead (nv_ss v) rest (n - zlen acc)%Z)%nat).
    { unfold busy, ahead, current in *. destruct (ss_run (nv_ss v)) as [r|]; [|lia]. cbn [met]. destruct (Hc Hsz) as (Hsp & _). destruct (has_place r); cbn [andb]; [|lia].
      destruct (Z.ltb_spec (r_sp r) (r_alloc r)) as [K|K]; cbn [andb]; [|lia]. replace (ss_pos (nv_ss v) <? ss_size (nv_ss v)) with true by lia.
      replace ((r_sp r <? r_sp r + (n - zlen acc)) && true && (0 <? r_sp r + (n - zlen acc))) with true by lia. lia. }
    destruct x as [bs|e| |]; try (exists j; split; [exact Hj|lia]).
    assert (Hnext : forall v1 rest1 acc1, nr_rest cs data p v1 rest1 -> Forall (run_ok img) rest1 -> current (nv_ss v1) ->
        match ss_run (nv_ss v1) with Some r => r_sp r <= r_alloc r | None => True end ->
        (j + length (d_reads d1) + ahead (nv_ss v1) rest1 (n - zlen acc1)%Z <= length (d_reads d) + ahead (nv_ss v) rest (n - zlen acc)%Z)%nat ->
        let '(d', _) := stream_read_loop nr_ops f v1 n acc1 d1 in
        exists j, d_seeks d' = skipn j (d_seeks d) /\ (j + length (d_reads d') <= length (d_reads d) + ahead (nv_ss v) rest (n - zlen acc)%Z)%nat).
    { intros v1 rest1 acc1 A1 A2 A3 A4 A5. specialize (IH v1 n acc1 d1 rest1 A1 A2 A3 Hi1 A4). destruct (stream_read_loop nr_ops f v1 n acc1 d1) as [d3 y].
      destruct IH as (j' & Hj' & Hl'). exists (j + j')%nat. split; [rewrite Hj', Hj; apply skipn_twice|lia]. }
    assert (Hr1 : nr_rest cs data p (so_set nr_ops v s1) rest) by exact Hr. set (v1 := so_set nr_ops v s1) in *. change (nv_ss v1) with s1 in *.
    destruct bs as [|b t].
    - assert (Hjr : (j + length (d_reads d1) <= length (d_reads d))%nat) by (destruct Hx as [Hx|(_ & K & _)]; [exact Hx|contradiction]).
      assert (G : good img false d1) by (split; [exact Hi1|discriminate]).
      destruct rest as [|r rest].
      + destruct (nr_adv_nil cs data p img false v1 d1 Hr1 G) as (d2 & v2 & E & _). cbn [so_advance nr_ops] in E. injection E as Ed En. cbn [so_advance nr_ops]. rewrite En.
        exists j. split; [exact Hj|lia].
      + destruct (nr_adv_cons cs data p img false v1 r rest d1 Hr1 G) as (d2 & v2 & E & Hr2 & Hs2 & _). cbn [so_advance nr_ops] in E. injection E as Ed En. cbn [so_advance nr_ops]. rewrite En.
        cbn [so_ss nr_ops] in Hs2. pose proof (Forall_inv Hok) as Ho1. pose proof (Forall_inv_tail Hok) as Ho2. destruct Ho1 as (A & B & C).
        apply (Hnext v2 rest acc Hr2 Ho2).
        * rewrite Hs2. intros _. cbn [ss_run]. split; [lia|exact C].
        * rewrite Hs2. cbn [ss_run]. lia.
        * assert (Ea : ahead (nv_ss v2) rest (n - zlen acc) = met (r :: rest) 0 (n - zlen acc)) by (rewrite Hs2; unfold ahead; cbn [ss_run]; rewrite A; reflexivity).
          rewrite Ea. unfold ahead. destruct (ss_run (nv_ss v)) as [r0|] eqn:Er0; [|lia].
          destruct (Hsh d1 s1 [] r0 eq_refl eq_refl) as (_ & _ & [K|K]); [reflexivity| |lia].
          assert (Heq : r_sp r0 = r_alloc r0) by lia. replace (met (r0 :: r :: rest) (r_sp r0) (r_sp r0 + (n - zlen acc))) with (met (r :: rest) 0 (n - zlen acc)); [lia|].
          change (met (r0 :: r :: rest) (r_sp r0) (r_sp r0 + (n - zlen acc))) with (Nat.add (if has_place r0 && ((r_sp r0 <? r_sp r0 + (n - zlen acc)) && (r_sp r0 <? r_alloc r0) && (0 <? r_sp r0 + (n - zlen acc))) then 1%nat else 0%nat) (met (r :: rest) (r_sp r0 - r_alloc r0) (r_sp r0 + (n - zlen acc) - r_alloc r0))).
          replace (r_sp r0 <? r_alloc r0) with false by lia. rewrite andb_false_r, andb_false_l, andb_false_r. cbn [Nat.add]. f_equal; lia.
    - destruct (ss_run (nv_ss v)) as [r|] eqn:Er; [|specialize (Hnone eq_refl); congruence].
      destruct (Hsh d1 s1 (b :: t) r eq_refl eq_refl) as (Es1 & Hle1 & _). specialize (Hle1 Hle). pose proof (zlen_nonneg t) as Hz0. pose proof (zlen_cons b t) as Hz.
      destruct (Z.le_gt_cases (ss_size (nv_ss v)) (ss_pos (nv_ss v) + zlen (b :: t))) as [Hin|Hin].
      { pose proof (cost_behind f v1 n (acc ++ b :: t) d1) as Hbh. change (nv_ss v1) with s1 in Hbh. rewrite Es1 in Hbh at 1 2. cbn [ss_pos ss_size] in Hbh. specialize (Hbh Hin).
        destruct (stream_read_loop nr_ops f v1 n (acc ++ b :: t) d1) as [d3 y]. cbn [fst] in Hbh. subst d3. exists j. split; [exact Hj|]. destruct Hx as [Hx|(Hx & _)]; lia. }
      apply (Hnext v1 rest (acc ++ b :: t) Hr1 Hok Hc1).
      + change (nv_ss v1) with s1. rewrite Es1. cbn [ss_run r_sp r_alloc]. exact Hle1.
      + change (nv_ss v1) with s1. rewrite zlen_app. unfold ahead at 1. rewrite Es1. cbn [ss_run].
        set (z := zlen (b :: t)) in *. cbn [r_sp].
        assert (Em : forall x y, met (mkRun (r_pos r) (r_alloc r) (r_sp r + z) :: rest) x y = met (r :: rest) x y) by reflexivity. rewrite Em.
        replace (r_sp r + z + (n - (zlen acc + z))) with (r_sp r + (n - zlen acc)) by lia.
        pose proof (met_le (r :: rest) (r_sp r) (r_sp r + z) (r_sp r + (n - zlen acc)) ltac:(lia)) as M1.
        assert (Ea : ahead (nv_ss v) rest (n - zlen acc) = met (r :: rest) (r_sp r) (r_sp r + (n - zlen acc))) by (unfold ahead; rewrite Er; reflexivity).
        destruct Hx as [Hx|(Hx & _ & Hd)]; [lia|]. rewrite <- Ea in *.
        destruct Hd as [Hd|Hd].
        { rewrite (met_none (r :: rest)) by lia. lia. }
        unfold busy in Hd. rewrite Es1 in Hd. cbn [ss_run ss_pos ss_size r_sp r_alloc] in Hd. unfold has_place in Hd. cbn [r_pos] in Hd. fold (has_place r) in Hd.
        destruct (has_place r) eqn:Ehp.
        2:{ assert (busy (nv_ss v) = false) as Hbf by (unfold busy; rewrite Er, Ehp; reflexivity). rewrite Hbf in Hjb. lia. }
        cbn [andb] in Hd. destruct (Z.ltb_spec (r_sp r + z) (r_alloc r)) as [K|K]; cbn [andb] in Hd.
        { apply Z.ltb_ge in Hd. lia. }
        assert (M2 : met (r :: rest) (r_sp r + z) (r_sp r + (n - zlen acc)) = met rest (r_sp r + z - r_alloc r) (r_sp r + (n - zlen acc) - r_alloc r)).
        { cbn [met]. replace (r_sp r + z <? r_alloc r) with false by lia. rewrite andb_false_r, andb_false_l, andb_false_r. reflexivity. }
        rewrite M2. pose proof (met_le rest (r_sp r - r_alloc r) (r_sp r + z - r_alloc r) (r_sp r + (n - zlen acc) - r_alloc r) ltac:(lia)) as M3. lia.
  Qed.
End Reading.
Lemma met_extents cs l : forall a b, met (map (run_of cs) l) a b = touched cs l a b.
Proof. induction l as [|[[n|] c] t IH]; intros a b; cbn [map met touched]; try rewrite IH; cbn; auto. Qed.

(** From [d] to [d'] at most [k] seeks, and one more for each read whose answer was prepared. *)
Definition paid (k : nat) (d d' : dev) : Prop := exists j, d_seeks d' = skipn j (d_seeks d) /\ (j + length (d_reads d') <= length (d_reads d) + k)%nat.
Lemma paid_0 d : paid 0 d d.
Proof. exists 0%nat. split; [reflexivity|lia]. Qed.
Lemma paid_le k k' d d' : (k <= k')%nat -> paid k d d' -> paid k' d d'.
Proof. intros H (j & H1 & H2). exists j. split; [exact H1|lia]. Qed.
Lemma paid_trans k1 k2 d d1 d2 : paid k1 d d1 -> paid k2 d1 d2 -> paid (k1 + k2) d d2.
Proof. intros (j1 & A1 & A2) (j2 & B1 & B2). exists (j1 + j2)%nat. split; [rewrite B1, A1; apply skipn_twice|lia]. Qed.
Lemma paid_within k d d' : paid k d d' -> seeks_within (k + short_reads d d') d d'.
Proof. intros (j & H1 & H2). exists j. split; [unfold short_reads; lia|exact H1]. Qed.

Lemma cost_inv cs img l enc p size d1 v1 n : valid_extents cs img l -> encodes 0 l enc -> d_img d1 = img -> nr_inv cs enc p size (map (run_of cs) l) v1 ->
  let pos := ss_pos (nv_ss v1) in paid (touched cs l pos (pos + n)) d1 (fst (nr_read v1 n d1)).
Proof.
  intros Hv He Hi1 I1.
  destruct I1 as (rest & [J1 J2 J3 (pre & J4) J5 J6]). cbn [so_ss nr_ops] in *. unfold pos in *. cbn [so_ss nr_ops] in *.
  pose proof (valid_runs _ _ _ Hv) as Hok. assert (Hok2 := Hok). rewrite J4 in Hok2. apply Forall_app in Hok2 as (_ & Hok2). cbv zeta. unfold nr_read.
  destruct (Z.le_gt_cases (ss_size (nv_ss v1)) (ss_pos (nv_ss v1))) as [Hsz|Hsz].
  { rewrite cost_behind by exact Hsz. eapply paid_le; [|apply paid_0]. lia. }
  assert (Hc : current img (nv_ss v1) /\ (match ss_run (nv_ss v1) with Some r => r_sp r <= r_alloc r | None => True end) /\
    (ahead (nv_ss v1) rest (n - zlen (@nil Z))%Z <= touched cs l (ss_pos (nv_ss v1)) (ss_pos (nv_ss v1) + n)%Z)%nat).
  { change (zlen (@nil Z)) with 0. rewrite Z.sub_0_r, <- (met_extents cs). destruct J6 as [J6|J6]; [lia|].
    inversion J6 as [done r rest' sp K1 K2 K3 K4 K5|K1 K2 K3]; subst; cbn [so_ss nr_ops] in *.
    - rewrite K1 in Hok. apply Forall_app in Hok as (_ & Hok). apply Forall_inv in Hok. destruct Hok as (A & B & C). unfold ahead. rewrite K2. cbn [r_sp r_alloc]. splits.
      + intros _. rewrite K2. cbn [r_sp]. split; [lia|exact C].
      + lia.
      + rewrite K1, met_app. 
        change (met (mkRun (r_pos r) (r_alloc r) sp :: rest) sp (sp + n)) with (met (r :: rest) sp (sp + n)).
        match goal with |- (?x <= ?y + ?z)%nat => replace x with z; [lia|] end. f_equal; lia.
    - splits; [intros _; rewrite K1; exact I|rewrite K1; exact I|]. unfold ahead. rewrite K1. cbn. lia. }
  destruct Hc as (Hc & Hle & Ha). pose proof (cost_loop cs enc p img (nr_fuel v1 d1) v1 n [] d1 rest J3 Hok2 Hc Hi1 Hle) as H.
  destruct (stream_read_loop nr_ops (nr_fuel v1 d1) v1 n [] d1) as [d2 y]. destruct H as (j & Hj & Hjl). cbn [fst]. exists j. split; [exact Hj|lia].
Qed.

Lemma cost_read cs img l enc p size ops d d1 v v1 n : valid_extents cs img l -> encodes 0 l enc -> 0 <= size <= U64_MAX -> d_img d = img -> Forall op_ok ops ->
  nr_new cs enc p size = Ok v -> reader_exec nr_read nr_seek v d ops = (d1, v1) ->
  let d2 := fst (nr_read v1 n d1) in
  let pos := ss_pos (nv_ss v1) in seeks_within (touched cs l pos (pos + n) + short_reads d1 d2) d1 d2.
Proof.
  intros Hv He Hs Hi Ho Hnew Hex. destruct (nr_extents_new cs img l enc p size Hv He) as (v0 & E0 & I0 & _). assert (v0 = v) by congruence. subst v0.
  destruct (nr_exec_inv cs img l enc p size Hv He Hs false ops v d d1 v1) as (I1 & G1); auto. { split; auto. discriminate. }
  destruct G1 as (Hi1 & _). apply paid_within. exact (cost_inv cs img l enc p size d1 v1 n Hv He Hi1 I1).
Qed.

(** Volume and references. *)
Lemma cost_volume_info nt d : seeks_within 2 d (fst (volume_info nt d)).
Proof. refine (within_bind 2 0 _ _ d (cost_file nt 3) _). intros f d1. apply within_0. reflexivity. Qed.
Lemma cost_volume_name nt d : seeks_within 2 d (fst (volume_name nt d)).
Proof. unfold volume_name. pose proof (cost_file nt 3 d) as H. destruct (ntfs_file nt 3 d) as [d1 [f|e| |]]; exact H. Qed.
Lemma cost_ie_to_file nt e d : seeks_within 2 d (fst (ie_to_file nt e d)).
Proof. apply within_lift. intros r d1. apply cost_file. Qed.
