(** * Proofs for C43: reads and seeks on any non-resident value return. *)
From Coq Require Import Lia.
From Verif Require Import Base Dev Types DataRuns Stream NonResident Spec BaseProofs DevProofs DataRunsProofs StreamProofs NonResidentProofs EvolveProofs IndexRecordProofs.

(** The result is not "out of fuel", and with [b] no panic either. *)
Definition fine {A} (b : bool) (r : res A) : Prop := match r with Ok _ | Err _ => True | Panic => b = false | OutOfFuel => False end.
Definition below (r : run) : Prop := forall p, r_pos r = Some p -> p + r_alloc r <= TWO64.

Definition run_sane (b : bool) (r : run) : Prop :=
  0 <= r_sp r <= U64_MAX /\ 0 <= r_alloc r <= U64_MAX /\ (forall p, r_pos r = Some p -> 0 <= p) /\ (b = true -> below r).
Definition ss_sane (b : bool) (s : stream_state) : Prop :=
  0 <= ss_pos s <= U64_MAX /\ 0 <= ss_size s <= U64_MAX /\ forall r, ss_run s = Some r -> run_sane b r.

(** Reading goes no further in the current run. *)
Definition dry (img : list Z) (s : stream_state) : Prop :=
  forall m d d' s' bs, d_img d = img -> ss_read_data_run s m d = (d', (s', Ok bs)) -> bs = [].

Definition events (d : dev) : nat := length (d_reads d) + length (d_seeks d).

Lemma suffix_len {A} (a b : list A) : suffix a b -> (length a <= length b)%nat.
Proof. intros (x & ->). rewrite app_length. lia. Qed.
Lemma evolves_events d d' : evolves d d' -> (events d' <= events d)%nat.
Proof. intros (_ & H1 & H2). apply suffix_len in H1. apply suffix_len in H2. unfold events. lia. Qed.

Lemma run_read_sane b r n d d' r' x : run_sane b r -> 0 < n -> run_read r n d = (d', (r', x)) ->
  run_sane b r' /\ fine b x /\ (x = Err (EIo Interrupted) -> (events d' < events d)%nat) /\
  forall bs, x = Ok bs -> zlen bs <= n /\ r_sp r' = r_sp r + zlen bs /\ r_alloc r' = r_alloc r /\ r_pos r' = r_pos r /\
    (bs = [] \/ r_sp r' <= r_alloc r /\
     (zlen bs = Z.min n (run_remaining r) \/ (length (d_reads d') < length (d_reads d))%nat \/
      exists p, r_pos r' = Some p /\ zlen (d_img d) <= p + r_sp r')).
Proof.
  intros (S1 & S2 & S3 & S4) Hn H. unfold run_read in H. destruct (run_remaining r =? 0) eqn:E0.
  { injection H as <- <- <-. split; [split; auto|]. split; [exact Logic.I|]. split; [discriminate|]. intros bs [= <-]. change (zlen (@nil Z)) with 0.
    splits; auto; lia. }
  unfold run_remaining in *. set (k := Z.min n _) in *. assert (Hk : 1 <= k <= n /\ r_sp r + k <= r_alloc r) by lia.
  destruct (r_pos r) as [p|] eqn:Ep.
  2: { injection H as <- <- <-. split; [split; [cbn; lia|split; auto]; split; cbn; [congruence|intros Hb; intros p Hp; cbn in Hp; congruence]|].
       split; [exact Logic.I|]. split; [discriminate|]. intros bs [= <-]. rewrite zlen_zrepeat by lia. cbn [r_sp r_alloc r_pos]. splits; auto; lia. }
  destruct (U64_MAX <? p + r_sp r) eqn:Eo.
  { injection H as <- <- <-. split; [split; auto; rewrite Ep; auto|]. split; [|split; [discriminate|intros bs [=]]].
    cbn. destruct b; auto. exfalso. specialize (S4 eq_refl p Ep). specialize (S3 p eq_refl). unfold U64_MAX, TWO64 in *. lia. }
  assert (Hsame : run_sane b r) by (split; auto; rewrite Ep; auto).
  destruct (dev_seek (p + r_sp r) d) as [d1 y] eqn:E1.
  assert (Hds : y = Ok tt /\ d_pos d1 = p + r_sp r /\ d_img d1 = d_img d /\ d_reads d1 = d_reads d /\ (length (d_seeks d1) <= length (d_seeks d))%nat \/
    (exists e, y = Err (EIo e)) /\ (events d1 < events d)%nat).
  { unfold dev_seek in E1. unfold events. destruct (d_seeks d) as [|[e|] t]; injection E1 as <- <-; cbn; [left|right|left]; splits; eauto; lia. }
  destruct Hds as [(-> & P1 & P2 & P3 & P4)|((e & ->) & P)].
  2: { injection H as <- <- <-. split; auto. split; [exact Logic.I|]. split; [auto|intros bs [=]]. }
  pose proof (S3 p eq_refl) as Hp0.
  unfold dev_read in H. rewrite P1, P2, P3, from_pos_nonneg in H by lia. destruct (d_reads d) as [|[j|e] t] eqn:Er.
  - injection H as <- <- <-. set (bs := ztake k (zdrop (p + r_sp r) (d_img d))).
    assert (Hz : zlen bs = Z.min k (Z.max 0 (zlen (d_img d) - (p + r_sp r)))).
    { unfold bs. rewrite zlen_ztake, zlen_zdrop. pose proof (zlen_nonneg (d_img d)). lia. }
    assert (Hz0 := zlen_nonneg bs). split; [split; [cbn; lia|split; auto]; cbn; split; [intros p0 [= <-]; auto|intros Hb p0 [= <-]; exact (S4 Hb p Ep)]|].
    split; [exact Logic.I|]. split; [discriminate|]. intros bs' [= <-]. cbn [r_sp r_alloc r_pos]. splits; auto; try lia.
    right. split; [lia|]. destruct (Z.eq_dec (zlen bs) k); [left; lia|]. right. right. exists p. split; auto. lia.
  - injection H as <- <- <-. set (bs := ztake _ _).
    assert (Hz : zlen bs <= k). { unfold bs. rewrite !zlen_ztake. lia. }
    assert (Hz0 := zlen_nonneg bs). split; [split; [cbn; lia|split; auto]; cbn; split; [intros p0 [= <-]; auto|intros Hb p0 [= <-]; exact (S4 Hb p Ep)]|].
    split; [exact Logic.I|]. split; [discriminate|]. intros bs' [= <-]. cbn [r_sp r_alloc r_pos d_reads]. splits; auto; try lia.
    right. split; [lia|]. right. left. cbn. lia.
  - injection H as <- <- <-. split; auto. split; [exact Logic.I|]. split; [|intros bs [=]]. intros _. unfold events. cbn [d_reads d_seeks]. rewrite Er. cbn [length]. lia.
Qed.

Lemma ss_read_sane b s n d d' s' x : ss_sane b s -> 0 < n -> ss_read_data_run s n d = (d', (s', x)) ->
  ss_sane b s' /\ ss_size s' = ss_size s /\ fine b x /\ (x = Err (EIo Interrupted) -> (events d' < events d)%nat) /\
  forall bs, x = Ok bs -> zlen bs <= n /\ (bs = [] \/ zlen bs = n \/ (length (d_reads d') < length (d_reads d))%nat \/ dry (d_img d) s').
Proof.
  intros (S1 & S2 & S3) Hn H. unfold ss_read_data_run in H. assert (Hs : ss_sane b s) by (split; auto).
  destruct (ss_run s) as [r|] eqn:Er.
  2: { injection H as <- <- <-. split; auto. split; auto. split; [exact Logic.I|]. split; [discriminate|]. intros bs [= <-]. change (zlen (@nil Z)) with 0. split; [lia|auto]. }
  destruct (r_alloc r <=? r_sp r) eqn:E1.
  { injection H as <- <- <-. split; auto. split; auto. split; [exact Logic.I|]. split; [discriminate|]. intros bs [= <-]. change (zlen (@nil Z)) with 0. split; [lia|auto]. }
  destruct (Z.max 0 (ss_size s - ss_pos s) =? 0) eqn:E2.
  { injection H as <- <- <-. split; auto. split; auto. split; [exact Logic.I|]. split; [discriminate|]. intros bs [= <-]. change (zlen (@nil Z)) with 0. split; [lia|auto]. }
  destruct (run_read r (Z.min n (Z.max 0 (ss_size s - ss_pos s))) d) as [d1 [r1 y]] eqn:Ey.
  destruct (run_read_sane b r (Z.min n (Z.max 0 (ss_size s - ss_pos s))) d d1 r1 y (S3 r eq_refl) ltac:(lia) Ey) as (R1 & R2 & R3 & R4).
  assert (Hfin : ss_sane b (mkSS (Some r1) (ss_pos s) (ss_size s))).
  { split; [exact S1|]. split; [exact S2|]. intros r0 [= <-]. exact R1. }
  destruct y as [bs|e| |]; injection H as <- <- <-.
  2-4: split; auto; split; auto; split; auto; split; auto; intros bs [=].
  destruct (R4 bs eq_refl) as (L1 & L2 & L3 & L4 & L5). pose proof (zlen_nonneg bs) as Hz0. cbn [ss_size]. split.
  { split; [cbn; lia|]. split; [exact S2|]. cbn. intros r0 [= <-]. exact R1. }
  split; auto. split; auto. split; [discriminate|]. intros bs' [= <-]. split; [lia|]. destruct L5 as [->|(L5 & L6)]; [auto|]. right.
  destruct L6 as [L6|[L6|(p & L6 & L7)]]; [|auto|].
  - unfold run_remaining in L6. destruct (Z.eq_dec (zlen bs) n); [auto|]. right. right. intros m d0 d0' s0' bs0 _ Hr. unfold ss_read_data_run in Hr.
    cbn [ss_run ss_pos ss_size] in Hr. destruct (r_alloc r1 <=? r_sp r1) eqn:Q1; [congruence|].
    replace (Z.max 0 (ss_size s - (ss_pos s + zlen bs)) =? 0) with true in Hr by lia. congruence.
  - right. right. intros m d0 d0' s0' bs0 Hi Hr. unfold ss_read_data_run in Hr.
    cbn [ss_run ss_pos ss_size] in Hr. destruct (r_alloc r1 <=? r_sp r1) eqn:Q1; [congruence|].
    destruct (Z.max 0 (ss_size s - (ss_pos s + zlen bs)) =? 0) eqn:Q2; [(cbv beta iota in Hr; congruence)|]. unfold run_read in Hr. destruct (run_remaining r1 =? 0); [(cbv beta iota in Hr; congruence)|]. rewrite L6 in Hr.
    destruct (U64_MAX <? _); [(cbv beta iota in Hr; congruence)|]. destruct (dev_seek _ d0) as [d2 z] eqn:E3.
    assert (Hds : (z = Ok tt -> d_pos d2 = p + r_sp r1 /\ d_img d2 = d_img d)).
    { intros ->. unfold dev_seek in E3. destruct (d_seeks d0) as [|[e|] t]; injection E3 as <-; cbn; try discriminate; auto. }
    destruct z as [[]| | |]; try (cbv beta iota in Hr; congruence). destruct Hds as (D1 & D2); auto. unfold dev_read in Hr. rewrite D1, D2, from_pos_nonneg in Hr by (pose proof (zlen_nonneg (d_img d)); lia).
    rewrite (zdrop_all (p + r_sp r1)) in Hr by lia.
    destruct (d_reads d2) as [|[j|e] t].
    + rewrite ztake_nil in Hr. (cbv beta iota in Hr; congruence).
    + rewrite !ztake_nil in Hr. (cbv beta iota in Hr; congruence).
    + (cbv beta iota in Hr; congruence).
Qed.

Lemma druns_next_not_interrupted cs data p s s' : druns_next cs data p s <> (s', Some (Err (EIo Interrupted))).
Proof.
  unfold druns_next. cbv zeta. destruct (zdrop _ data) as [|h rest]; [discriminate|]. destruct (h =? 0); [discriminate|].
  unfold read_variable_length. repeat (match goal with |- context [if ?c then _ else _] => destruct c end; try discriminate).
  all: destruct (checked_mul64 _ cs); try discriminate.
  all: repeat (match goal with |- context [if ?c then _ else _] => destruct c end; try discriminate).
  all: destruct (lcn_checked_add _ _); try discriminate. all: unfold lcn_position; destruct (checked_mul64 _ cs); discriminate.
Qed.

(** ** The reader *)
Definition runs_below (cs : Z) (data : list Z) (p : position) (s : druns) : Prop :=
  forall n r, In (Some (Ok r)) (iterate (druns_next cs data p) n s) -> below r.

Record nr_sane (b : bool) (v : nrv) : Prop := {
  ns_cs : 1 <= nv_cs v;
  ns_data : bytes_ok (nv_data v);
  ns_off : 0 <= dr_off (nv_runs v);
  ns_prev : 0 <= dr_prev (nv_runs v) <= U64_MAX;
  ns_start : b = true -> runs_below (nv_cs v) (nv_data v) (nv_position v) druns_start;
  ns_next : b = true -> runs_below (nv_cs v) (nv_data v) (nv_position v) (nv_runs v);
  ns_ss : ss_sane b (nv_ss v) }.

Lemma nr_sane_set b v s : nr_sane b v -> ss_sane b s -> nr_sane b (nv_set_ss v s).
Proof. intros [H1 H2 H3 H4 H5 H6 H7] H. split; auto. Qed.

Definition togo (v : nrv) : nat := length (zdrop (dr_off (nv_runs v)) (nv_data v)).

Lemma runs_below_next cs data p s s' x : runs_below cs data p s -> druns_next cs data p s = (s', x) -> runs_below cs data p s'.
Proof. intros H E n r Hin. apply (H (S n) r). cbn [iterate]. rewrite E. right. exact Hin. Qed.

Lemma nr_next_sane b v v' x : nr_sane b v -> nr_next_data_run v = (v', x) ->
  nr_sane b v' /\ fine b x /\ x <> Err (EIo Interrupted) /\ (x = Ok true -> (togo v' < togo v)%nat) /\ nv_data v' = nv_data v /\
  ss_pos (nv_ss v') = ss_pos (nv_ss v) /\ ss_size (nv_ss v') = ss_size (nv_ss v).
Proof.
  intros [H1 H2 H3 H4 H5 H6 H7] H. unfold nr_next_data_run in H.
  destruct (druns_next (nv_cs v) (nv_data v) (nv_position v) (nv_runs v)) as [s' it] eqn:E.
  destruct (druns_next_spec _ _ _ _ _ _ H1 H2 H3 H4 E) as (St & Hp).
  assert (Hb : b = true -> runs_below (nv_cs v) (nv_data v) (nv_position v) s') by (intros Hb; exact (runs_below_next _ _ _ _ _ _ (H6 Hb) E)).
  inversion St as [s1 Q1 Q2|s1 pos count Q1 Q2 Q3 Q4|s1 e Q1 Q2]; subst; injection H as <- <-; cbn [nv_set_ss nv_cs nv_data nv_position nv_runs nv_ss ss_pos ss_size].
  - splits; try discriminate; auto; try exact Logic.I. split; auto; cbn; lia.
  - splits; try discriminate; auto; try exact Logic.I.
    + split; cbn [nv_set_ss nv_cs nv_data nv_position nv_runs nv_ss]; auto; [lia|]. destruct H7 as (A1 & A2 & A3). split; [exact A1|]. split; [exact A2|].
      cbn. intros r [= <-]. split; [unfold U64_MAX in *; cbn; lia|]. split; [cbn; nia|]. cbn [r_pos]. split.
      * intros q Hq. destruct Q4 as [->|(lcn & -> & ? & ?)]; [discriminate|]. injection Hq as <-. nia.
      * intros Hbt. apply (H6 Hbt 1%nat). cbn [iterate]. rewrite E. left. reflexivity.
    + intros _. unfold togo. cbn [nv_runs nv_data nv_set_ss]. apply (druns_next_progress _ _ _ _ _ _ E H3).
  - splits; try discriminate; auto; try exact Logic.I.
    + split; auto; cbn; lia.
    + intros [= ->]. exact (druns_next_not_interrupted _ _ _ _ _ E).
Qed.

Lemma nr_read_loop_sane b fuel : forall v n acc d d' v' x, nr_sane b v -> zlen acc <= n \/ n <= 0 ->
  (length (d_reads d) + 2 * togo v + 2 <= fuel)%nat \/ (dry (d_img d) (nv_ss v) /\ (length (d_reads d) + 2 * togo v + 1 <= fuel)%nat) ->
  stream_read_loop nr_ops fuel v n acc d = (d', (v', x)) ->
  nr_sane b v' /\ nv_data v' = nv_data v /\ fine b x /\ (x = Err (EIo Interrupted) -> (events d' < events d)%nat) /\
  (forall bs, x = Ok bs -> zlen bs <= Z.max n (zlen acc)).
Proof.
  induction fuel as [|f IH]; intros v n acc d d' v' x Hv Hacc Hf H; cbn [stream_read_loop] in H.
  { destruct (n <=? zlen acc) eqn:E0; [|exfalso; destruct Hf as [Hf|[_ Hf]]; lia]. injection H as <- <- <-. splits; auto; try exact Logic.I; [discriminate|]. intros bs [= <-]. lia. }
  destruct (n <=? zlen acc) eqn:E0.
  { injection H as <- <- <-. splits; auto; try exact Logic.I; [discriminate|]. intros bs [= <-]. lia. }
  cbn [so_ss so_set so_advance nr_ops] in H.
  destruct (ss_read_data_run (nv_ss v) (n - zlen acc) d) as [d1 [s1 y]] eqn:E1.
  pose proof (ss_read_data_run_evolves (nv_ss v) (n - zlen acc) d) as Ev. rewrite E1 in Ev. cbn [fst] in Ev.
  assert (Hn0 : 0 < n - zlen acc) by lia. destruct (ss_read_sane b _ _ _ _ _ _ (ns_ss _ _ Hv) Hn0 E1) as (R1 & R2 & R3 & R4 & R5).
  pose proof (nr_sane_set b v s1 Hv R1) as Hv1.
  pose proof (evolves_length _ _ Ev) as Hl. pose proof (evolves_events _ _ Ev) as He. assert (Hi : d_img d1 = d_img d) by apply Ev.
  destruct y as [bs|e| |].
  2-4: injection H as <- <- <-; splits; auto; intros bs [=].
  destruct (R5 bs eq_refl) as (L1 & L2). destruct bs as [|c bs].
  - destruct (nr_next_data_run (nv_set_ss v s1)) as [v2 z] eqn:E2.
    destruct (nr_next_sane b _ _ _ Hv1 E2) as (N1 & N2 & N3 & N4 & N5 & _).
    destruct z as [[]|e| |].
    3-5: injection H as <- <- <-; splits; auto; [intros; exfalso; congruence|intros bs [=]].
    + specialize (N4 eq_refl). change (togo (nv_set_ss v s1)) with (togo v) in N4.
      destruct (IH v2 n acc d1 d' v' x N1 Hacc ltac:(left; destruct Hf as [Hf|[_ Hf]]; lia) H) as (I1 & I2 & I3 & I4 & I5).
      splits; auto; [now rewrite I2|]. intros Hx. specialize (I4 Hx). lia.
    + injection H as <- <- <-. splits; auto; [discriminate|]. intros bs [= <-]. lia.
  - set (bs2 := c :: bs) in *. assert (Hpos : 1 <= zlen bs2) by (unfold bs2; rewrite zlen_cons; pose proof (zlen_nonneg bs); lia).
    assert (H' : stream_read_loop nr_ops f (nv_set_ss v s1) n (acc ++ bs2) d1 = (d', (v', x))) by exact H. clear H.
    assert (Hap : zlen (acc ++ bs2) = zlen acc + zlen bs2) by apply zlen_app.
    destruct L2 as [L2|[L2|L2]]; [discriminate| |].
    + assert (E : n <=? zlen (acc ++ bs2) = true) by lia.
      assert (H2 : (d1, (nv_set_ss v s1, Ok (acc ++ bs2))) = (d', (v', x))).
      { rewrite <- H'. destruct f; cbn [stream_read_loop]; rewrite E; reflexivity. }
      injection H2 as <- <- <-. splits; auto; try exact Logic.I; [discriminate|]. intros bs0 [= <-]. lia.
    + assert (Hf2 : (length (d_reads d) + 2 * togo v + 2 <= S f)%nat).
      { destruct Hf as [Hf|[Hd _]]; auto. exfalso. specialize (Hd _ _ _ _ _ eq_refl E1). discriminate. }
      destruct (IH (nv_set_ss v s1) n (acc ++ bs2) d1 d' v' x Hv1 ltac:(left; lia)) as (I1 & I2 & I3 & I4 & I5); [|exact H'|].
      * change (togo (nv_set_ss v s1)) with (togo v). destruct L2 as [L2|L2]; [left; lia|right]. cbn [nv_set_ss nv_ss]. rewrite Hi. split; auto. lia.
      * splits; auto; [intros Hx; specialize (I4 Hx); lia|]. intros bs0 Hb0. specialize (I5 bs0 Hb0). lia.
Qed.

Lemma togo_le v : (togo v <= length (nv_data v))%nat.
Proof. unfold togo. rewrite zdrop_skipn, skipn_length. lia. Qed.

Lemma nr_read_sane b v n d d' v' x : nr_sane b v -> nr_read v n d = (d', (v', x)) ->
  nr_sane b v' /\ fine b x /\ (x = Err (EIo Interrupted) -> (events d' < events d)%nat) /\ (forall bs, x = Ok bs -> zlen bs <= Z.max 0 n).
Proof.
  intros Hv H. unfold nr_read in H. pose proof (togo_le v) as T. unfold nr_fuel in H.
  assert (Ha : zlen (@nil Z) <= n \/ n <= 0) by (change (zlen (@nil Z)) with 0; lia).
  destruct (nr_read_loop_sane b (length (d_reads d) + 3 * length (nv_data v) + 6) v n [] d d' v' x Hv Ha ltac:(left; lia) H) as (H1 & _ & H2 & H3 & H4).
  change (zlen (@nil Z)) with 0 in H4. splits; auto. intros bs E. specialize (H4 bs E). lia.
Qed.

Lemma nr_seek_loop_sane b fuel : forall v is_start left d d' v' x, nr_sane b v -> left <= U64_MAX -> (is_start = false -> left <= I64_MAX) ->
  (togo v + 1 <= fuel)%nat -> stream_seek_loop nr_ops fuel v is_start left d = (d', (v', x)) ->
  nr_sane b v' /\ fine b x /\ d' = d /\ x <> Err (EIo Interrupted) /\ ss_pos (nv_ss v') = ss_pos (nv_ss v).
Proof.
  induction fuel as [|f IH]; intros v is_start left d d' v' x Hv Hl Hl2 Hf H; cbn [stream_seek_loop] in H; [lia|].
  destruct (left <=? 0) eqn:E0. { injection H as <- <- <-. splits; auto; try exact Logic.I. discriminate. }
  cbn [so_ss so_set so_advance nr_ops] in H.
  destruct (ss_seek_data_run (nv_ss v) is_start left) as [[s1 left1] y] eqn:E1.
  assert (Hs : ss_sane b s1 /\ ss_pos s1 = ss_pos (nv_ss v) /\ left1 <= left /\ exists t, y = Ok t).
  { pose proof (ns_ss _ _ Hv) as (S1 & S2 & S3). unfold ss_seek_data_run in E1. destruct (ss_run (nv_ss v)) as [r|] eqn:Er.
    2: { injection E1 as <- <- <-. splits; eauto; try lia. split; auto. split; auto. rewrite Er. auto. }
    destruct (S3 r eq_refl) as (R1 & R2 & R3 & R4).
    destruct (left <? run_remaining r) eqn:E2.
    2: { injection E1 as <- <- <-. splits; eauto; unfold run_remaining; try lia. split; auto. split; auto. rewrite Er. auto. }
    unfold run_remaining in E2. unfold run_seek in E1.
    destruct is_start.
    - cbn [seek_contiguous] in E1. injection E1 as <- <- <-. splits; eauto; try lia. split; [exact S1|]. split; [exact S2|]. intros r0 [= <-].
      split; [cbn; lia|]. split; [cbn; lia|]. split; auto.
    - assert (Ht : to_i64 left = left) by (apply to_i64_small; lia). rewrite Ht in E1.
      unfold seek_contiguous in E1. replace (0 <=? left) with true in E1 by lia. unfold checked_add64 in E1.
      replace (r_sp r + left <=? U64_MAX) with true in E1 by lia.
      injection E1 as <- <- <-. splits; eauto; try lia. split; [exact S1|]. split; [exact S2|]. intros r0 [= <-].
      split; [cbn; lia|]. split; [cbn; lia|]. split; auto. }
  destruct Hs as (R1 & R2 & R3 & t & ->). pose proof (nr_sane_set b v s1 Hv R1) as Hv1. destruct t.
  { injection H as <- <- <-. splits; auto; try exact Logic.I. discriminate. }
  destruct (nr_next_data_run (nv_set_ss v s1)) as [v2 z] eqn:E2.
  destruct (nr_next_sane b _ _ _ Hv1 E2) as (N1 & N2 & N3 & N4 & N5 & N6 & N7). change (togo (nv_set_ss v s1)) with (togo v) in N4.
  cbn [nv_set_ss nv_ss] in N6.
  destruct z as [[]|e| |].
  3-5: injection H as <- <- <-; splits; auto; congruence.
  - specialize (N4 eq_refl). destruct (IH v2 is_start left1 d d' v' x N1 ltac:(lia) ltac:(intros; specialize (Hl2 H0); lia) ltac:(lia) H) as (I1 & I2 & I3 & I4 & I5).
    splits; auto. congruence.
  - injection H as <- <- <-. splits; auto; [|discriminate|cbn; congruence]. apply nr_sane_set; auto. destruct (ns_ss _ _ N1) as (A1 & A2 & A3).
    split; [exact A1|]. split; [exact A2|]. intros r [=].
Qed.

Lemma optimize_seek_cases s sf size : 0 <= size <= U64_MAX -> 0 <= ss_pos s <= U64_MAX -> seek_arg_ok sf ->
  let q := seek_target size (ss_pos s) sf in
  (0 <= q <= U64_MAX /\ ss_pos s <= q <= ss_pos s + I64_MAX /\ optimize_seek s sf size = Ok (SCurrent (q - ss_pos s))) \/
  (0 <= q <= U64_MAX /\ (q < ss_pos s \/ I64_MAX < q - ss_pos s) /\ optimize_seek s sf size = Ok (SStart q)) \/
  (~ (0 <= q <= U64_MAX) /\ optimize_seek s sf size = Err (EIo InvalidInput)).
Proof.
    intros Hs Hp Ha q. 
    assert (Hopt : forall m, 0 <= m <= U64_MAX ->
      (match checked_sub64 m (ss_pos (s)) with
       | Some k => if k <=? I64_MAX then Ok (SCurrent k) else Ok (SStart m)
       | None => Ok (SStart m) end) = (if (ss_pos s <=? m) && (m - ss_pos s <=? I64_MAX) then Ok (SCurrent (m - ss_pos s)) else Ok (SStart m))).
    { intros m Hm. unfold checked_sub64.  destruct (ss_pos s <=? m) eqn:E; cbn; auto. }
    destruct sf as [n|n|n]; cbn [seek_target] in q; cbn [seek_arg_ok] in Ha; unfold optimize_seek, simplify_seek;
      unfold checked_add64.
    - cbn [rbind]. rewrite Hopt by lia. subst q. destruct (_ && _) eqn:E; [left|right; left]; repeat split; auto; lia.
    - destruct (0 <=? n) eqn:En.
      + destruct (size + n <=? U64_MAX) eqn:E1; cbn [rbind].
        * rewrite Hopt by (unfold U64_MAX in *; lia). fold q. destruct (_ && _) eqn:E; [left|right; left]; repeat split; auto; lia.
        * right; right. split; auto; lia.
      + assert (Hneg : (- n) mod TWO64 = - n) by (apply Z.mod_small; unfold TWO64, I64_MIN in *; lia). rewrite Hneg.
        destruct (checked_sub64 size (- n)) as [b|] eqn:E1; cbn [rbind].
        * apply checked_sub64_some in E1 as [-> E1]. rewrite Hopt by lia. replace (size - - n) with q by lia.
          destruct (_ && _) eqn:E; [left|right; left]; repeat split; auto; lia.
        * right; right. split; auto. unfold checked_sub64 in E1. destruct (- n <=? size) eqn:E2; [discriminate|lia].
    - destruct (0 <=? n) eqn:En.
      + destruct (ss_pos s + n <=? U64_MAX) eqn:E1; cbn [rbind].
        * left. repeat split; try lia. do 2 f_equal; lia.
        * right; right. split; auto; lia.
      + assert (Hneg : (- n) mod TWO64 = - n) by (apply Z.mod_small; unfold TWO64, I64_MIN in *; lia). rewrite Hneg.
        destruct (checked_sub64 (ss_pos s) (- n)) as [b|] eqn:E1; cbn [rbind].
        * apply checked_sub64_some in E1 as [-> E1]. rewrite Hopt by lia. replace (ss_pos s - - n) with q by lia.
          destruct (_ && _) eqn:E; [left|right; left]; repeat split; auto; lia.
        * right; right. split; auto. unfold checked_sub64 in E1. destruct (- n <=? ss_pos s) eqn:E2; [discriminate|lia].
  Qed.

Lemma nr_seek_sane b v sf d d' v' x : nr_sane b v -> seek_arg_ok sf -> nr_seek v sf d = (d', (v', x)) ->
  nr_sane b v' /\ fine b x /\ d' = d.
Proof.
  intros Hv Ha H. unfold nr_seek, stream_seek in H. pose proof (ns_ss _ _ Hv) as (S1 & S2 & S3). pose proof (togo_le v) as T.
  cbn [so_ss so_set so_rewind nr_ops] in H.
  destruct (optimize_seek_cases (nv_ss v) sf (nr_len v) S2 S1 Ha) as [(Hq & Hd & E)|[(Hq & Hd & E)|(Hq & E)]];
    rewrite E in H; set (q := seek_target _ _ _) in *.
  - replace (0 <=? q - ss_pos (nv_ss v)) with true in H by lia.
    destruct (stream_seek_loop nr_ops (nr_fuel v d) v false (q - ss_pos (nv_ss v)) d) as [d1 [v1 y]] eqn:E1.
    destruct (nr_seek_loop_sane b (nr_fuel v d) v false (q - ss_pos (nv_ss v)) d d1 v1 y Hv ltac:(unfold I64_MAX, U64_MAX in *; lia) ltac:(lia)
      ltac:(unfold nr_fuel; lia) E1) as (N1 & N2 & -> & N4 & N5).
    unfold stream_seek_finish in H. destruct y as [[]|e| |]. 2-4: injection H as <- <- <-; splits; auto.
    cbn [so_ss so_set nr_ops] in H. rewrite N5 in H. replace (U64_MAX <? ss_pos (nv_ss v) + (q - ss_pos (nv_ss v))) with false in H by lia.
    injection H as <- <- <-. splits; auto. apply nr_sane_set; auto. destruct (ns_ss _ _ N1) as (A1 & A2 & A3).
    split; [cbn; lia|]. split; auto.
  - destruct (nr_rewind v) as [v1 y] eqn:E0. unfold nr_rewind in E0.
    set (v0 := mkNrv (nv_cs v) (nv_data v) (nv_position v) druns_start (ss_new (ss_size (nv_ss v)))) in *.
    assert (Hv0 : nr_sane b v0).
    { destruct Hv as [H1 H2 H3 H4 H5 H6 H7]. split; cbn; auto; [lia|unfold U64_MAX; lia|]. split; [cbn; unfold U64_MAX; lia|]. split; [exact S2|]. intros r [=]. }
    destruct (nr_next_data_run v0) as [v2 z] eqn:E2. destruct (nr_next_sane b _ _ _ Hv0 E2) as (N1 & N2 & N3 & _ & N5 & _).
    destruct z as [t|e| |]; injection E0 as <- <-. 2-4: injection H as <- <- <-; splits; auto.
    destruct (stream_seek_loop nr_ops (nr_fuel v d) v2 true q d) as [d1 [v1 y]] eqn:E1.
    pose proof (togo_le v2) as T2. rewrite N5 in T2. change (nv_data v0) with (nv_data v) in T2.
    destruct (nr_seek_loop_sane b (nr_fuel v d) v2 true q d d1 v1 y N1 ltac:(lia) ltac:(discriminate) ltac:(unfold nr_fuel; lia) E1) as (M1 & M2 & -> & M4 & M5).
    unfold stream_seek_finish in H. destruct y as [[]|e| |]. 2-4: injection H as <- <- <-; splits; auto.
    cbn [so_ss so_set nr_ops] in H. injection H as <- <- <-. splits; auto. apply nr_sane_set; auto. destruct (ns_ss _ _ M1) as (A1 & A2 & A3).
    split; [cbn; lia|]. split; auto.
  - injection H as <- <- <-. splits; auto. exact Logic.I.
Qed.

(** ** From the start, over a history of operations *)
Lemma nr_new_sane b cs data p size : 1 <= cs -> bytes_ok data -> 0 <= size <= U64_MAX ->
  (b = true -> runs_below cs data p druns_start) ->
  match nr_new cs data p size with Ok v => nr_sane b v | Err _ => True | Panic => b = false | OutOfFuel => False end.
Proof.
  intros Hcs Hd Hs Hb. unfold nr_new.
  assert (Hv : nr_sane b (mkNrv cs data p druns_start (ss_new size))).
  { split; cbn; auto; [lia|unfold U64_MAX; lia|]. split; [cbn; unfold U64_MAX; lia|]. split; [exact Hs|]. intros r [=]. }
  destruct (nr_next_data_run _) as [v x] eqn:E. destruct (nr_next_sane b _ _ _ Hv E) as (N1 & N2 & _). destruct x; auto.
Qed.

Definition opres_fine (b : bool) (r : opres) : Prop := match r with RBytes x => fine b x | RPos x => fine b x end.

Lemma nr_run_sane b ops : forall v d, nr_sane b v -> Forall op_ok ops ->
  Forall (opres_fine b) (reader_run nr_read nr_seek v d ops) /\ nr_sane b (snd (reader_exec nr_read nr_seek v d ops)).
Proof.
  induction ops as [|o ops IH]; intros v d Hv Ho; [split; [constructor|exact Hv]|]. inversion Ho as [|? ? O1 O2]; subst. cbn [reader_run reader_exec].
  destruct o as [n|sf]; cbn [reader_step].
  - destruct (nr_read v n d) as [d1 [v1 x]] eqn:E. destruct (nr_read_sane b v n d d1 v1 x Hv E) as (H1 & H2 & _).
    destruct (IH v1 d1 H1 O2) as (I1 & I2). split; auto.
  - destruct (nr_seek v sf d) as [d1 [v1 x]] eqn:E. destruct (nr_seek_sane b v sf d d1 v1 x Hv O1 E) as (H1 & H2 & _).
    destruct (IH v1 d1 H1 O2) as (I1 & I2). split; auto.
Qed.

Lemma nr_read_exact_loop_sane b fuel : forall v n acc d d' v' x, nr_sane b v -> (Z.to_nat n + events d < fuel)%nat ->
  rs_read_exact_loop nr_read fuel v n acc d = (d', (v', x)) -> nr_sane b v' /\ fine b x.
Proof.
  induction fuel as [|f IH]; intros v n acc d d' v' x Hv Hf H; [lia|]. cbn [rs_read_exact_loop] in H.
  destruct (n <=? 0) eqn:En; [injection H as <- <- <-; split; auto; exact Logic.I|].
  destruct (nr_read v n d) as [d1 [v1 y]] eqn:E. destruct (nr_read_sane b v n d d1 v1 y Hv E) as (H1 & H2 & H3 & H4).
  pose proof (nr_read_evolves v n d) as He. rewrite E in He. cbn [fst] in He. apply evolves_events in He.
  destruct y as [bs|e| |].
  - destruct bs as [|h t]; [injection H as <- <- <-; split; auto; exact Logic.I|].
    specialize (H4 _ eq_refl). rewrite zlen_cons in *. pose proof (zlen_nonneg t). eapply IH; [exact H1| |exact H]. lia.
  - destruct e; try (injection H as <- <- <-; split; auto; fail). destruct k; try (injection H as <- <- <-; split; auto; fail).
    eapply IH; [exact H1| |exact H]. specialize (H3 eq_refl). lia.
  - injection H as <- <- <-; split; auto.
  - injection H as <- <- <-; split; auto.
Qed.

Lemma nr_read_exact_sane b v n d d' v' x : nr_sane b v -> nr_read_exact v n d = (d', (v', x)) -> nr_sane b v' /\ fine b x.
Proof. intros Hv H. unfold nr_read_exact, rs_read_exact in H. eapply nr_read_exact_loop_sane; [exact Hv| |exact H]. unfold events. lia. Qed.

Lemma nr_total cs data p size : 1 <= cs -> bytes_ok data -> 0 <= size <= U64_MAX ->
  nr_new cs data p size <> OutOfFuel /\
  forall v ops d, nr_new cs data p size = Ok v -> Forall op_ok ops ->
    Forall (fun r => r <> RBytes OutOfFuel /\ r <> RPos OutOfFuel) (reader_run nr_read nr_seek v d ops) /\
    forall d1 v1 n, reader_exec nr_read nr_seek v d ops = (d1, v1) -> snd (snd (nr_read_exact v1 n d1)) <> OutOfFuel.
Proof.
  intros Hcs Hd Hs. pose proof (nr_new_sane false cs data p size Hcs Hd Hs ltac:(discriminate)) as Hn.
  split; [intros E; rewrite E in Hn; exact Hn|]. intros v ops d E Ho. rewrite E in Hn. destruct (nr_run_sane false ops v d Hn Ho) as (R1 & R2). split.
  - eapply Forall_impl; [|exact R1]. intros [[]|[]]; cbn; intros; split; try discriminate; contradiction.
  - intros d1 v1 n E1. rewrite E1 in R2. cbn [snd] in R2. destruct (nr_read_exact v1 n d1) as [d2 [v2 x]] eqn:E2.
    destruct (nr_read_exact_sane false v1 n d1 d2 v2 x R2 E2) as (_ & F). cbn [snd]. intros ->. exact F.
Qed.

Lemma nr_no_panic cs data p size : 1 <= cs -> bytes_ok data -> 0 <= size <= U64_MAX -> runs_below cs data p druns_start ->
  returns (nr_new cs data p size) /\
  forall v ops d, nr_new cs data p size = Ok v -> Forall op_ok ops ->
    Forall (fun r => match r with RBytes x => returns x | RPos x => returns x end) (reader_run nr_read nr_seek v d ops) /\
    forall d1 v1 n, reader_exec nr_read nr_seek v d ops = (d1, v1) -> returns (snd (snd (nr_read_exact v1 n d1))).
Proof.
  intros Hcs Hd Hs Hb. pose proof (nr_new_sane true cs data p size Hcs Hd Hs (fun _ => Hb)) as Hn. split.
  - destruct (nr_new cs data p size); cbn in *; auto; discriminate.
  - intros v ops d E Ho. rewrite E in Hn. destruct (nr_run_sane true ops v d Hn Ho) as (R1 & R2). split.
    + eapply Forall_impl; [|exact R1]. intros [[]|[]]; cbn; auto; discriminate.
    + intros d1 v1 n E1. rewrite E1 in R2. cbn [snd] in R2. destruct (nr_read_exact v1 n d1) as [d2 [v2 x]] eqn:E2.
      destruct (nr_read_exact_sane true v1 n d1 d2 v2 x R2 E2) as (_ & F). cbn [snd]. destruct x; cbn in *; auto; discriminate.
Qed.
