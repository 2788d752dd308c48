(** * Proofs for C75. *)
From Coq Require Import Lia.
From Verif Require Import Base Dev Types DataRuns BootSector File SectorReader BufReader Spec SpecMisc SpecFaults SpecStack BaseProofs DevProofs SectorProofs.

Lemma read_any n d d' r : 0 < n -> 0 <= d_pos d -> dev_read n d = (d', r) ->
  d_img d' = d_img d /\ d_seeks d' = d_seeks d /\ d_reads d' = tl (d_reads d) /\
  ((exists j, 1 <= j <= n /\ r = Ok (ztake j (zdrop (d_pos d) (d_img d))) /\ d_pos d' = d_pos d + zlen (ztake j (zdrop (d_pos d) (d_img d))) /\ (d_reads d = [] -> j = n))
   \/ (exists k t, r = Err (EIo k) /\ d_pos d' = d_pos d /\ d_reads d = RErr k :: t)).
Proof.
  intros H H0 H1. unfold dev_read in H1. rewrite from_pos_nonneg in H1 by lia. destruct (d_reads d) as [|[k|k] t] eqn:E; injection H1 as <- <-; cbn [d_img d_pos d_seeks d_reads tl].
  - splits; auto. left. exists n. splits; auto; lia.
  - splits; auto. left. exists (Z.min (Z.of_nat k + 1) n). rewrite !ztake_ztake by lia. splits; auto; try lia. discriminate.
  - splits; auto. right. eauto.
Qed.

Lemma reports_tl d d' k : d_reads d' = tl (d_reads d) -> d_seeks d' = d_seeks d -> reports d' k -> reports d k.
Proof. intros E1 E2 [H|H]; [left|right]; [|now rewrite <- E2]. rewrite E1 in H. destruct (d_reads d); [destruct H|right; exact H]. Qed.

Lemma read_exact_any fuel : forall n acc d, 0 <= d_pos d -> 0 <= n -> (length (d_reads d) + 2 <= fuel)%nat ->
  exists d' r, dev_read_exact_loop fuel n acc d = (d', r) /\ d_img d' = d_img d /\ (forall k, reports d' k -> reports d k) /\ (faultless d -> faultless d') /\
  ((n = 0 \/ d_pos d + n <= zlen (d_img d)) /\ r = Ok (acc ++ ztake n (zdrop (d_pos d) (d_img d))) \/
   exists k, k <> Interrupted /\ (reports d k \/ k = UnexpectedEof /\ zlen (d_img d) < d_pos d + n) /\ r = Err (EIo k)).
Proof.
  induction fuel as [|fuel IH]; intros n acc d Hp Hn Hf; [lia|]. cbn [dev_read_exact_loop]. destruct (n <=? 0) eqn:E.
  { assert (n = 0) by lia. subst. exists d. eexists. split; [reflexivity|]. splits; auto. left. split; auto. rewrite ztake_0, app_nil_r by lia. reflexivity. }
  destruct (dev_read n d) as [d1 r] eqn:Er. apply read_any in Er; try lia. destruct Er as (Ei & Es & Ed & Hr).
  assert (Hrep : forall k, reports d1 k -> reports d k) by (intros k; now apply reports_tl).
  assert (Hfl : faultless d -> faultless d1) by (intros H; eapply faultless_tl; eauto).
  destruct Hr as [(j & Hj & -> & Hpos & Hfull)|(k & t & -> & Hpos & Hk)].
  - set (bs := ztake j (zdrop (d_pos d) (d_img d))) in *. assert (Hlen : zlen bs = Z.min j (Z.max 0 (zlen (d_img d) - d_pos d))).
    { unfold bs. rewrite zlen_ztake, zlen_zdrop. lia. }
    destruct bs as [|b t] eqn:Eb; fold bs in Hlen.
    { rewrite zlen_nil in Hlen. exists d1. eexists. split; [reflexivity|]. splits; auto. right. exists UnexpectedEof. splits; [discriminate| |reflexivity]. right. split; auto. lia. }
    rewrite <- Eb in *. assert (Hnn : 0 < zlen bs) by (rewrite Eb, zlen_cons; pose proof (zlen_nonneg t); lia). clear Eb.
    destruct (d_reads d) as [|e evs] eqn:Ev.
    + specialize (Hfull eq_refl). subst j. destruct fuel as [|fuel]; [cbn in Hf; lia|].
      destruct (Z.eq_dec (zlen bs) n) as [Hz|Hz].
      * rewrite Hz. replace (n - n) with 0 by lia. cbn [dev_read_exact_loop]. cbn. exists d1. eexists. split; [reflexivity|]. splits; auto. left. split; [right; lia|reflexivity].
      * cbn [dev_read_exact_loop]. replace (n - zlen bs <=? 0) with false by lia. destruct (dev_read (n - zlen bs) d1) as [d2 r2] eqn:E2. apply read_any in E2; try lia.
        destruct E2 as (Ei2 & Es2 & Ed2 & [(j2 & Hj2 & -> & _ & _)|(k & t2 & _ & _ & C)]); [|rewrite Ed in C; discriminate C].
        replace (ztake j2 (zdrop (d_pos d1) (d_img d1))) with (@nil Z).
        2: { symmetry. apply zlen_0. rewrite zlen_ztake, zlen_zdrop, Ei. lia. }
        exists d2. eexists. split; [reflexivity|]. splits; try congruence.
        { intros k Hk. apply Hrep. revert Hk. now apply reports_tl. }
        { intros H. apply Hfl in H. eapply faultless_tl; eauto. }
        right. exists UnexpectedEof. splits; [discriminate| |reflexivity]. right. split; auto. lia.
    + destruct (IH (n - zlen bs) (acc ++ bs) d1) as (d' & r & E' & I' & R' & F' & H'); [lia|lia|rewrite Ed; cbn in Hf |- *; lia|].
      exists d', r. splits; auto; try congruence. rewrite Ei, Hpos in H'. destruct H' as [(H1 & ->)|(k & K1 & K2 & K3)].
      * left. split; [right; lia|]. f_equal. rewrite <- app_assoc. f_equal. unfold bs.
        destruct (Z.le_gt_cases j (zlen (d_img d) - d_pos d)) as [Hle|Hgt].
        { fold bs. replace (zlen bs) with j by lia. replace n with (j + (n - j)) at 2 by lia. rewrite ztake_split by lia. rewrite zdrop_zdrop by lia. do 2 f_equal. f_equal. lia. }
        { fold bs in Hlen. lia. }
      * right. exists k. splits; auto. destruct K2 as [K2|(K2 & K4)]; [auto|]. right. split; auto. lia.
  - assert (Hrk : reports d k) by (left; rewrite Hk; left; reflexivity).
    destruct k; try (exists d1; eexists; split; [reflexivity|]; splits; auto; right; eexists; splits; [|left; exact Hrk|reflexivity]; discriminate).
    destruct (IH n acc d1) as (d' & r & E' & I' & R' & F' & H'); [lia|lia|rewrite Ed; rewrite Hk in *; cbn in Hf |- *; lia|].
    exists d', r. splits; auto; try congruence. rewrite Ei, Hpos in H'. destruct H' as [H'|(k & K1 & K2 & K3)]; [left; exact H'|]. right. exists k. splits; auto. destruct K2 as [K2|K2]; auto.
Qed.

Section Stack.
  Context (sector cap : Z) (Hs : 0 < sector <= 2 ^ 62) (Hc : 0 < cap <= I64_MAX).

  Lemma sr_read_any q m d : 0 <= q -> 0 <= m <= I64_MAX -> zlen (d_img d) <= U64_MAX -> d_pos d = round_down sector q ->
    exists d' s' r, sr_read (mkSR sector q) m d = (d', (s', r)) /\ sr_sector s' = sector /\ d_img d' = d_img d /\ (forall k, reports d' k -> reports d k) /\ (faultless d -> faultless d') /\
    (~ zlen (d_img d) < round_down sector (q + m) + sector /\ r = Ok (slice (d_img d) q (q + m)) \/
     exists k, (reports d k \/ k = UnexpectedEof /\ zlen (d_img d) < round_down sector (q + m) + sector) /\ k <> Interrupted /\ r = Err (EIo k)).
  Proof.
    intros Hq Hm Hl Hp. unfold sr_read. cbn [sr_pos sr_sector]. unfold align_up. rewrite !down_eq by lia. cbn [sr_sector].
    destruct (down_bounds sector (proj1 Hs) q Hq) as (B1 & B2 & B3). set (a := round_down sector q) in *.
    pose proof (down_add sector (proj1 Hs) a (q - a + m) B3) as E. replace (a + (q - a + m)) with (q + m) in E by lia.
    destruct (down_bounds sector (proj1 Hs) (q - a + m) ltac:(lia)) as (C1 & C2 & C3). set (b := round_down sector (q - a + m)) in *.
    replace (U64_MAX <? b + sector) with false by (unfold U64_MAX, I64_MAX in *; lia).
    unfold dev_read_exact. destruct (read_exact_any (length (d_reads d) + 2) (b + sector) [] d ltac:(lia) ltac:(lia) ltac:(lia)) as (d' & r & Ed & I' & R' & F' & H). rewrite Ed.
    destruct H as [(H & ->)|(k & K1 & K2 & ->)].
    - destruct H as [H|H]; [lia|]. cbn [app].
      assert (Hz : zlen (ztake (b + sector) (zdrop (d_pos d) (d_img d))) = b + sector) by (rewrite zlen_ztake, zlen_zdrop; lia).
      unfold idx_range. rewrite get_range_in by lia. replace (U64_MAX <? q + m) with false by lia.
      do 3 eexists. split; [reflexivity|]. splits; auto. left. split; [lia|]. f_equal. unfold slice. rewrite Hp.
      rewrite zdrop_ztake by lia. rewrite ztake_ztake, zdrop_zdrop by lia. f_equal; [lia|]. f_equal. lia.
    - do 3 eexists. split; [reflexivity|]. splits; auto. right. exists k. splits; auto. destruct K2 as [K2|(K2 & K3)]; [auto|right]. split; auto. lia.
  Qed.

  (** The answer to one access. *)
  Definition access_ok (d : dev) (p n : Z) (r : res (list Z)) : Prop :=
    (~ too_near sector cap (zlen (d_img d)) p n /\ p + n <= zlen (d_img d)) /\ r = Ok (slice (d_img d) p (p + n)) \/
    exists k, (reports d k \/ k = UnexpectedEof /\ too_near sector cap (zlen (d_img d)) p n) /\ r = Err (EIo k).

  Lemma fits_below p m : 0 <= p -> 0 <= m -> ~ zlen (@nil Z) < 0 -> forall len, ~ len < round_down sector (p + m) + sector -> p + m < len.
  Proof. intros Hp Hm _ len H. destruct (down_bounds sector (proj1 Hs) (p + m) ltac:(lia)) as (B1 & B2 & B3). lia. Qed.

  Lemma buf_read_any q n d : 0 <= q -> 0 <= n <= I64_MAX -> zlen (d_img d) <= U64_MAX -> d_pos d = round_down sector q ->
    exists d' b' r, buf_read cap (mkBuf [] (mkSR sector q)) n d = (d', (b', r)) /\ sr_sector (bf_inner b') = sector /\ d_img d' = d_img d /\ (forall k, reports d' k -> reports d k) /\
    (faultless d -> faultless d') /\ access_ok d q n r /\ r <> Err (EIo Interrupted).
  Proof.
    intros Hq Hn Hl Hp. unfold buf_read. cbn [bf_rest bf_inner]. unfold access_ok, too_near. destruct (cap <=? n) eqn:Ec.
    - destruct (sr_read_any q n d Hq Hn Hl Hp) as (d' & s' & r & E & Hsec & I' & R' & F' & H). rewrite E. do 3 eexists. split; [reflexivity|]. splits; auto.
      + destruct H as [(H & ->)|(k & K1 & K2 & ->)]; [left|right].
        * split; auto. pose proof (fits_below q n Hq ltac:(lia) ltac:(rewrite zlen_nil; lia) _ H). split; [replace (Z.max n cap) with n by lia; exact H|lia].
        * exists k. split; auto. replace (Z.max n cap) with n by lia. exact K1.
      + destruct H as [(H & ->)|(k & K1 & K2 & ->)]; [discriminate|congruence].
    - destruct (sr_read_any q cap d Hq ltac:(lia) Hl Hp) as (d' & s' & r & E & Hsec & I' & R' & F' & H). rewrite E. destruct H as [(H & ->)|(k & K1 & K2 & ->)].
      + do 3 eexists. split; [reflexivity|]. splits; auto; [|discriminate]. left. pose proof (fits_below q cap Hq ltac:(lia) ltac:(rewrite zlen_nil; lia) _ H). split; [split; [replace (Z.max n cap) with cap by lia; exact H|lia]|].
        f_equal. unfold slice. rewrite ztake_ztake by lia. f_equal. lia.
      + do 3 eexists. split; [reflexivity|]. splits; auto; [|congruence]. right. exists k. split; auto. replace (Z.max n cap) with cap by lia. exact K1.
  Qed.

  Lemma buf_read_exact_any q n d : 0 <= q -> 0 <= n <= I64_MAX -> zlen (d_img d) <= U64_MAX -> d_pos d = round_down sector q ->
    exists d' b' r, buf_read_exact cap (mkBuf [] (mkSR sector q)) n d = (d', (b', r)) /\ sr_sector (bf_inner b') = sector /\ d_img d' = d_img d /\ (forall k, reports d' k -> reports d k) /\
    (faultless d -> faultless d') /\ (access_ok d q n r \/ n = 0 /\ r = Ok []).
  Proof.
    intros Hq Hn Hl Hp. unfold buf_read_exact. replace (Z.to_nat n + 2)%nat with (S (S (Z.to_nat n))) by lia. cbn [buf_read_exact_loop]. destruct (n <=? 0) eqn:E0.
    { do 3 eexists. split; [reflexivity|]. splits; auto. right. split; auto; lia. }
    destruct (buf_read_any q n d Hq Hn Hl Hp) as (d' & b' & r & E & Hsec & I' & R' & F' & H & Hi). rewrite E. pose proof H as H0. destruct H as [((H2 & H) & ->)|(k & K1 & ->)].
    - assert (Hz : zlen (slice (d_img d) q (q + n)) = n) by (unfold slice; rewrite zlen_ztake, zlen_zdrop; lia).
      destruct (slice (d_img d) q (q + n)) as [|x t] eqn:Es; [rewrite zlen_nil in Hz; lia|]. rewrite <- Es in *. rewrite Hz. replace (n - n <=? 0) with true by lia.
      do 3 eexists. split; [reflexivity|]. splits; auto.
    - exists d', b', (Err (EIo k)). splits; auto. destruct k; try reflexivity. now destruct Hi.
  Qed.

  Lemma shell_access_any b p n exact d : sr_sector (bf_inner b) = sector -> 0 <= p -> 0 <= n <= I64_MAX -> zlen (d_img d) <= U64_MAX ->
    exists d' b' r, shell_access cap b p n exact d = (d', (b', r)) /\ sr_sector (bf_inner b') = sector /\ d_img d' = d_img d /\ (forall k, reports d' k -> reports d k) /\
    (faultless d -> faultless d') /\ (access_ok d p n r \/ exact = true /\ n = 0 /\ r = Ok []).
  Proof.
    intros Hb Hp Hn Hl. unfold shell_access, buf_seek, sr_seek. destruct b as [rest [sec sp]]. cbn [bf_inner bf_rest sr_sector sr_pos] in *. subst sec. rewrite down_eq by lia. unfold dev_seek.
    assert (Hok : forall ss, (forall k, In (Some k) ss -> In (Some k) (d_seeks d)) -> (Forall seek_ok (d_seeks d) -> Forall seek_ok ss) ->
      exists d' b' r, (if exact then buf_read_exact cap (mkBuf [] (mkSR sector p)) n (mkDev (d_img d) (round_down sector p) (d_reads d) ss)
        else buf_read cap (mkBuf [] (mkSR sector p)) n (mkDev (d_img d) (round_down sector p) (d_reads d) ss)) = (d', (b', r)) /\
      sr_sector (bf_inner b') = sector /\ d_img d' = d_img d /\ (forall k, reports d' k -> reports d k) /\ (faultless d -> faultless d') /\ (access_ok d p n r \/ exact = true /\ n = 0 /\ r = Ok [])).
    { intros ss Hss Hsf. set (d1 := mkDev (d_img d) (round_down sector p) (d_reads d) ss).
      assert (Hrep : forall k, reports d1 k -> reports d k) by (intros k [H|H]; [left; exact H|right; apply Hss; exact H]).
      assert (Hfl : faultless d -> faultless d1) by (intros [F1 F2]; split; cbn; auto).
      assert (Hacc : forall r, access_ok d1 p n r -> access_ok d p n r).
      { intros r [H|(k & K1 & K2)]; [left; exact H|right]. exists k. split; auto. destruct K1; auto. }
      destruct exact.
      - destruct (buf_read_exact_any p n d1 Hp Hn Hl eq_refl) as (d' & b' & r & E & Hsec & I' & R' & F' & H). exists d', b', r. splits; auto. destruct H as [H|H]; [left; auto|right; tauto].
      - destruct (buf_read_any p n d1 Hp Hn Hl eq_refl) as (d' & b' & r & E & Hsec & I' & R' & F' & H & _). exists d', b', r. splits; auto. }
    destruct (d_seeks d) as [|[e|] t] eqn:Es.
    - apply Hok; auto.
    - do 3 eexists. split; [reflexivity|]. cbn [bf_inner sr_sector]. splits; auto.
      + intros k [H|H]; [left; exact H|right]. rewrite Es. right. exact H.
      + intros [F1 F2]. exfalso. rewrite Es in F2. inversion F2 as [|? ? F3]. discriminate F3.
      + left. right. exists e. split; auto. left. right. rewrite Es. left. reflexivity.
    - apply Hok; [intros k H; right; exact H|]. intros F. now inversion F.
  Qed.

  (** Field by field. *)
  Definition between (p q : Z) (b : breader) (d : dev) : Prop :=
    sr_sector (bf_inner b) = sector /\ p <= q /\
    (bf_rest b = [] /\ sr_pos (bf_inner b) = q /\ d_pos d = round_down sector q \/
     exists e, bf_rest b = slice (d_img d) q e /\ sr_pos (bf_inner b) = e /\ p + cap <= e <= zlen (d_img d)).
  Definition step_err (d : dev) (last : Z) (k : iokind) : Prop := reports d k \/ k = UnexpectedEof /\ too_near sector cap (zlen (d_img d)) last 0.

  Lemma sr_seek_any s sf q d : sr_sector s = sector -> 0 <= q -> (sf = SStart q \/ exists n, sf = SCurrent n /\ sr_pos s + n = q /\ 0 <= sr_pos s <= U64_MAX /\ q <= U64_MAX) ->
    exists d' s' r, sr_seek s sf d = (d', (s', r)) /\ sr_sector s' = sector /\ d_img d' = d_img d /\ (forall k, reports d' k -> reports d k) /\
    (r = Ok q /\ sr_pos s' = q /\ d_pos d' = round_down sector q \/ exists k, reports d k /\ r = Err (EIo k)).
  Proof.
    intros Hb Hq Hsf. destruct s as [sec sp]. cbn [sr_sector sr_pos] in *. subst sec.
    assert (E : forall n, (match sf with SStart n => Some n | SCurrent n => if 0 <=? n then checked_add64 sp n else checked_sub64 sp ((- n) mod TWO64) | SEnd _ => None end) = Some n -> n = q ->
      sr_seek (mkSR sector sp) sf d = match dev_seek (round_down sector q) d with
          | (d', Ok _) => (d', (mkSR sector q, Ok q)) | (d', Err e) => (d', (mkSR sector sp, Err e)) | (d', Panic) => (d', (mkSR sector sp, Panic)) | (d', OutOfFuel) => (d', (mkSR sector sp, OutOfFuel)) end).
    { intros n E ->. unfold sr_seek. cbn [sr_pos sr_sector]. destruct Hsf as [->|(m & -> & _)]; [rewrite down_eq by lia; reflexivity|]. cbn [sr_pos] in E |- *. rewrite E, down_eq by lia. reflexivity. }
    rewrite (E q); [clear E| |reflexivity].
    - unfold dev_seek. destruct (d_seeks d) as [|[e|] t] eqn:Es; do 3 eexists; (split; [reflexivity|]); cbn [sr_sector sr_pos d_img d_pos]; splits; auto.
      + intros k [H|H]; [left; exact H|right; rewrite Es; exact H].
      + intros k [H|H]; [left; exact H|right; rewrite Es; right; exact H].
      + right. exists e. split; auto. right. rewrite Es. left. reflexivity.
      + intros k [H|H]; [left; exact H|right; rewrite Es; right; exact H].
    - destruct Hsf as [->|(n & -> & H1 & H2 & H3)]; [reflexivity|]. destruct (0 <=? n) eqn:En.
      + unfold checked_add64. rewrite H1. replace (q <=? U64_MAX) with true by lia. reflexivity.
      + unfold checked_sub64. rewrite Z.mod_small by (unfold TWO64, U64_MAX in *; lia). replace (- n <=? sp) with true by lia. f_equal. lia.
  Qed.

  Lemma too_near_mono len p q : 0 <= p <= q -> too_near sector cap len p 0 -> too_near sector cap len q 0.
  Proof.
    unfold too_near. intros H H1. replace (Z.max 0 cap) with cap in * by lia. unfold round_down in *.
    pose proof (Z.div_le_mono (p + cap) (q + cap) sector (proj1 Hs) ltac:(lia)). nia.
  Qed.

  Lemma field_any p q b d n last : between p q b d -> 0 <= p -> 0 <= n -> q + n <= last -> last < p + cap -> zlen (d_img d) <= U64_MAX ->
    exists d' b' r, buf_read_exact cap b n d = (d', (b', r)) /\ d_img d' = d_img d /\ (forall k, reports d' k -> reports d k) /\
    (r = Ok (slice (d_img d) q (q + n)) /\ between p (q + n) b' d' \/ exists k, step_err d last k /\ r = Err (EIo k)).
  Proof.
    intros (Hb & Hpq & Hst) Hp Hn Hq Hlast Hl. unfold buf_read_exact. replace (Z.to_nat n + 2)%nat with (S (S (Z.to_nat n))) by lia. cbn [buf_read_exact_loop]. destruct (n <=? 0) eqn:E0.
    { do 3 eexists. split; [reflexivity|]. splits; auto. left. replace (q + n) with q by lia. split; [unfold slice; now rewrite ztake_0 by lia|]. unfold between. auto. }
    destruct b as [rest [sec sp]]. cbn [bf_rest bf_inner sr_sector sr_pos] in *. subst sec.
    destruct Hst as [(-> & -> & Hd)|(e & -> & -> & He)].
    - unfold buf_read. cbn [bf_rest bf_inner]. replace (cap <=? n) with false by lia.
      destruct (sr_read_any q cap d ltac:(lia) ltac:(lia) Hl Hd) as (d' & s' & r & E & Hsec & I' & R' & F' & H).
      assert (Hpos : forall bs, r = Ok bs -> sr_pos s' = q + cap).
      { intros bs ->. revert E. unfold sr_read. cbn [sr_pos sr_sector]. destruct (U64_MAX <? _); [discriminate|]. destruct (dev_read_exact _ d) as [d2 [y|y| |]]; try discriminate.
        destruct (idx_range _ _ _); try discriminate. destruct (U64_MAX <? q + cap); [discriminate|]. intros E. injection E as _ <- _. reflexivity. }
      rewrite E. destruct H as [(H & ->)|(k & K1 & K2 & ->)].
      + pose proof (fits_below q cap ltac:(lia) ltac:(lia) ltac:(rewrite zlen_nil; lia) _ H) as Hfit. specialize (Hpos _ eq_refl).
        assert (Hz : zlen (ztake n (slice (d_img d) q (q + cap))) = n) by (unfold slice; rewrite !zlen_ztake, zlen_zdrop; lia).
        destruct (ztake n (slice (d_img d) q (q + cap))) as [|x t] eqn:Es; [rewrite zlen_nil in Hz; lia|]. rewrite <- Es in *. rewrite Hz. replace (n - n <=? 0) with true by lia.
        do 3 eexists. split; [reflexivity|]. splits; auto. left. split.
        * f_equal. cbn [app]. unfold slice. rewrite ztake_ztake. f_equal. lia.
        * unfold between. cbn [bf_rest bf_inner]. splits; auto; [lia|]. right. exists (q + cap). splits; auto; [|lia|rewrite I'; lia]. rewrite I'. unfold slice. rewrite zdrop_ztake, zdrop_zdrop by lia. f_equal; [lia|]. f_equal. lia.
      + exists d', (mkBuf [] s'), (Err (EIo k)). splits; auto.
        * destruct k; try reflexivity. now destruct K2.
        * right. exists k. split; auto. destruct K1 as [K1|(-> & K1)]; [left; exact K1|right]. split; auto. apply (too_near_mono _ q); [lia|]. unfold too_near. replace (Z.max 0 cap) with cap by lia. exact K1.
    - assert (Hz0 : zlen (slice (d_img d) q e) = e - q) by (unfold slice; rewrite zlen_ztake, zlen_zdrop; lia).
      unfold buf_read. cbn [bf_rest bf_inner]. destruct (slice (d_img d) q e) as [|x0 t0] eqn:Es0; [rewrite zlen_nil in Hz0; lia|]. rewrite <- Es0 in *.
      assert (Hz : zlen (ztake n (slice (d_img d) q e)) = n) by (rewrite zlen_ztake; lia).
      destruct (ztake n (slice (d_img d) q e)) as [|x t] eqn:Es; [rewrite zlen_nil in Hz; lia|]. rewrite <- Es in *. rewrite Hz. replace (n - n <=? 0) with true by lia.
      do 3 eexists. split; [reflexivity|]. splits; auto. left. split.
      + f_equal. cbn [app]. unfold slice. rewrite ztake_ztake. f_equal. lia.
      + unfold between. cbn [bf_rest bf_inner sr_sector sr_pos]. splits; auto; [lia|]. right. exists e. splits; auto; try lia. unfold slice. rewrite zdrop_ztake, zdrop_zdrop by lia. f_equal; [lia|]. f_equal. lia.
  Qed.

  Lemma tell_any p q b d : between p q b d -> 0 <= p -> q < p + cap -> p + cap <= U64_MAX -> zlen (d_img d) <= U64_MAX ->
    exists d' b' r, buf_tell b d = (d', (b', r)) /\ d_img d' = d_img d /\ (forall k, reports d' k -> reports d k) /\ (r = Ok q /\ between p q b' d' \/ exists k, reports d k /\ r = Err (EIo k)).
  Proof.
    intros (Hb & Hpq & Hst) Hp Hq Hc2 Hl. unfold buf_tell. set (e := sr_pos (bf_inner b)).
    assert (He : q <= e <= U64_MAX) by (unfold e; destruct Hst as [(_ & -> & _)|(e' & _ & -> & He)]; lia).
    destruct (sr_seek_any (bf_inner b) (SCurrent 0) e d Hb ltac:(lia)) as (d' & s' & r & E & Hsec & I' & R' & H); [right; exists 0; splits; auto; unfold e in *; lia|].
    rewrite E. destruct H as [(-> & H1 & H2)|(k & K & ->)].
    - do 3 eexists. split; [reflexivity|]. splits; auto. left. destruct Hst as [(Hr & Hsp & Hd)|(e' & Hr & Hsp & He')]; fold e in Hsp.
      + rewrite Hr, zlen_nil. replace (e <? 0) with false by lia. split; [f_equal; lia|]. unfold between. cbn [bf_rest bf_inner]. splits; auto. left. rewrite H1, H2. splits; auto. now rewrite Hsp.
      + assert (Hz : zlen (bf_rest b) = e' - q) by (rewrite Hr; unfold slice; rewrite zlen_ztake, zlen_zdrop; lia). rewrite Hz. replace (e <? e' - q) with false by lia.
        split; [f_equal; lia|]. unfold between. cbn [bf_rest bf_inner]. splits; auto. right. exists e'. rewrite I', H1. splits; auto; lia.
    - do 3 eexists. split; [reflexivity|]. splits; auto. right. eauto.
  Qed.

  Lemma here_any p q b d : between p q b d -> 0 <= p -> q < p + cap -> p + cap <= U64_MAX -> zlen (d_img d) <= U64_MAX ->
    exists d' b' r, buf_here b d = (d', (b', r)) /\ d_img d' = d_img d /\ (forall k, reports d' k -> reports d k) /\ (r = Ok q /\ between p q b' d' \/ exists k, reports d k /\ r = Err (EIo k)).
  Proof.
    intros (Hb & Hpq & Hst) Hp Hq Hc2 Hl. unfold buf_here.
    destruct (sr_seek_any (bf_inner b) (SCurrent (- zlen (bf_rest b))) q d Hb ltac:(lia)) as (d' & s' & r & E & Hsec & I' & R' & H).
    { right. exists (- zlen (bf_rest b)). split; [reflexivity|]. destruct Hst as [(H1 & H2 & Hd)|(e' & H1 & H2 & He')]; rewrite H1, H2; [change (zlen (@nil Z)) with 0; splits; lia|].
      unfold slice. rewrite zlen_ztake, zlen_zdrop. lia. }
    rewrite E. destruct H as [(-> & H1 & H2)|(k & K & ->)].
    - do 3 eexists. split; [reflexivity|]. splits; auto. left. split; auto. unfold between. cbn [bf_rest bf_inner]. splits; auto.
    - do 3 eexists. split; [reflexivity|]. splits; auto. right. eauto.
  Qed.

  Lemma steps_any p last : 0 <= p -> last < p + cap -> p + cap <= U64_MAX -> forall l q b d, between p q b d -> Forall (fun s => 0 <= step_size s) l -> q + total l = last -> zlen (d_img d) <= U64_MAX ->
    shell_steps cap b l d = Ok (right_steps (d_img d) q l) \/ exists k, step_err d last k /\ shell_steps cap b l d = Err (EIo k).
  Proof.
    intros Hp Hlast Hc2. assert (Htot : forall l, Forall (fun s => 0 <= step_size s) l -> 0 <= total l).
    { induction 1 as [|s l H _ IH]; cbn [total]; lia. }
    induction l as [|s l IH]; intros q b d Hb Hall Ht Hl; [left; reflexivity|]. pose proof (Forall_inv Hall) as H1. pose proof (Forall_inv_tail Hall) as H2. pose proof (Htot l H2). cbn [total] in Ht.
    assert (Herr : forall d' k, d_img d' = d_img d -> (forall k, reports d' k -> reports d k) -> step_err d' last k -> step_err d last k).
    { intros d' k I' R' [K|K]; [left; auto|right; now rewrite I' in K]. }
    destruct s as [n| |]; cbn [step_size] in *; cbn [shell_steps right_steps].
    - destruct (field_any p q b d n last Hb Hp H1 ltac:(lia) Hlast Hl) as (d' & b' & r & E & I' & R' & [(-> & Hb')|(k & K & ->)]); rewrite E; cbn.
      + destruct (IH (q + n) b' d' Hb' H2 ltac:(lia) ltac:(congruence)) as [->|(k & K & ->)]; cbn; [left; now rewrite I'|right; eauto].
      + right. eauto.
    - destruct (tell_any p q b d Hb Hp ltac:(lia) Hc2 Hl) as (d' & b' & r & E & I' & R' & [(-> & Hb')|(k & K & ->)]); rewrite E; cbn.
      + destruct (IH q b' d' Hb' H2 ltac:(lia) ltac:(congruence)) as [->|(k & K & ->)]; cbn; [left; now rewrite I'|right; eauto].
      + right. exists k. split; auto. now left.
    - destruct (here_any p q b d Hb Hp ltac:(lia) Hc2 Hl) as (d' & b' & r & E & I' & R' & [(-> & Hb')|(k & K & ->)]); rewrite E; cbn.
      + destruct (IH q b' d' Hb' H2 ltac:(lia) ltac:(congruence)) as [->|(k & K & ->)]; cbn; [left; now rewrite I'|right; eauto].
      + right. exists k. split; auto. now left.
  Qed.

  Lemma stack_fields b p l d : sr_sector (bf_inner b) = sector -> 0 <= p -> p + cap <= U64_MAX -> Forall (fun s => 0 <= step_size s) l -> total l < cap -> zlen (d_img d) <= U64_MAX ->
    shell_fields cap b p l d = Ok (right_steps (d_img d) p l) \/
    exists k, (reports d k \/ k = UnexpectedEof /\ too_near sector cap (zlen (d_img d)) (p + total l) 0) /\ shell_fields cap b p l d = Err (EIo k).
  Proof.
    intros Hb Hp Hc2 Hall Ht Hl. unfold shell_fields, buf_seek.
    destruct (sr_seek_any (bf_inner b) (SStart p) p d Hb Hp (or_introl eq_refl)) as (d' & s' & r & E & Hsec & I' & R' & [(-> & H1 & H2)|(k & K & ->)]); rewrite E; cbn.
    - destruct (steps_any p (p + total l) Hp ltac:(lia) Hc2 l p (mkBuf [] s') d') as [->|(k & K & ->)]; auto; [|congruence|left; now rewrite I'|right].
      + unfold between. cbn [bf_rest bf_inner]. splits; auto. lia.
      + exists k. split; auto. destruct K as [K|K]; [left; auto|right; now rewrite I' in K].
    - right. eauto.
  Qed.

  (** A field that is at least as large as the buffer is read past it. After that the position has to be asked for before the next field. *)
  Lemma stack_large b p n s l d : sr_sector (bf_inner b) = sector -> 0 <= p -> cap <= n <= I64_MAX -> p + n + cap <= U64_MAX -> step_size s = 0 -> s <> Field 0 ->
    Forall (fun s => 0 <= step_size s) l -> total l < cap -> zlen (d_img d) <= U64_MAX ->
    shell_fields cap b p (Field n :: s :: l) d = Ok (right_steps (d_img d) p (Field n :: s :: l)) \/
    exists k, (reports d k \/ k = UnexpectedEof /\ too_near sector cap (zlen (d_img d)) (p + n + total l) 0) /\ shell_fields cap b p (Field n :: s :: l) d = Err (EIo k).
  Proof.
    intros Hb Hp Hn Hc2 Hs0 Hsf Hall Ht Hl. unfold shell_fields, buf_seek.
    assert (Htot : 0 <= total l) by (clear - Hall; induction Hall; cbn [total]; lia).
    destruct (sr_seek_any (bf_inner b) (SStart p) p d Hb Hp (or_introl eq_refl)) as (d1 & s1 & r & E & Hsec & I1 & R1 & [(-> & H1 & H2)|(k & K & ->)]); rewrite E; [|right; eauto].
    cbn [rbind shell_steps right_steps]. destruct s1 as [sec sp]. cbn [sr_sector sr_pos] in *. subst sec sp.
    unfold buf_read_exact. replace (Z.to_nat n + 2)%nat with (S (S (Z.to_nat n))) by lia. cbn [buf_read_exact_loop]. replace (n <=? 0) with false by lia.
    assert (Eb : buf_read cap (mkBuf [] (mkSR sector p)) n d1 = let '(d2, (s2, r)) := sr_read (mkSR sector p) n d1 in (d2, (mkBuf [] s2, r))).
    { unfold buf_read. cbn [bf_rest bf_inner]. replace (cap <=? n) with true by lia. reflexivity. }
    destruct (sr_read_any p n d1 Hp ltac:(lia) ltac:(rewrite I1; exact Hl) H2) as (d2 & s2 & r & E2 & Hsec2 & I2 & R2 & F2 & H).
    assert (Hpos : forall bs, r = Ok bs -> sr_pos s2 = p + n).
    { intros bs ->. revert E2. unfold sr_read. cbn [sr_pos sr_sector]. destruct (U64_MAX <? _); [discriminate|]. destruct (dev_read_exact _ d1) as [d3 [y|y| |]]; try discriminate.
      destruct (idx_range _ _ _); try discriminate. destruct (U64_MAX <? p + n); [discriminate|]. intros E2. injection E2 as _ <- _. reflexivity. }
    rewrite E2 in Eb. rewrite !Eb. clear Eb. destruct H as [(H & ->)|(k & K1 & K2 & ->)].
    2:{ right. exists k. split.
        - destruct K1 as [K1|(-> & K1)]; [left; auto|right]. split; auto. rewrite I1 in K1. unfold too_near. replace (Z.max 0 cap) with cap by lia. unfold round_down in *.
          pose proof (Z.div_le_mono (p + n) (p + n + total l + cap) sector (proj1 Hs) ltac:(lia)). nia.
        - destruct k; try (exfalso; now apply K2). all:reflexivity. }
    pose proof (fits_below p n Hp ltac:(lia) ltac:(rewrite zlen_nil; lia) _ H) as Hfit. specialize (Hpos _ eq_refl).
    assert (Hz : zlen (slice (d_img d1) p (p + n)) = n) by (unfold slice; rewrite zlen_ztake, zlen_zdrop; lia).
    destruct (slice (d_img d1) p (p + n)) as [|x t] eqn:Es; [rewrite zlen_nil in Hz; lia|]. rewrite <- Es in *. rewrite Hz. replace (n - n <=? 0) with true by lia. cbn [rbind app].
    assert (Hrest : forall d3 s3, sr_sector s3 = sector -> d_img d3 = d_img d2 -> (forall k, reports d3 k -> reports d2 k) -> sr_pos s3 = p + n -> d_pos d3 = round_down sector (p + n) ->
      shell_steps cap (mkBuf [] s3) l d3 = Ok (right_steps (d_img d) (p + n) l) \/
      exists k, (reports d k \/ k = UnexpectedEof /\ too_near sector cap (zlen (d_img d)) (p + n + total l) 0) /\ shell_steps cap (mkBuf [] s3) l d3 = Err (EIo k)).
    { intros d3 s3 A1 A2 A3 A4 A5. assert (Hi : d_img d3 = d_img d) by congruence.
      destruct (steps_any (p + n) (p + n + total l) ltac:(lia) ltac:(lia) ltac:(lia) l (p + n) (mkBuf [] s3) d3) as [->|(k & K & ->)]; auto; [|congruence|left; now rewrite Hi|right].
      - unfold between. cbn [bf_rest bf_inner]. splits; auto. lia.
      - exists k. split; auto. destruct K as [K|K]; [left; auto|right; now rewrite Hi in K]. }
    destruct s as [m| |]; cbn [step_size] in Hs0; [subst m; now destruct Hsf| |]; cbn [shell_steps right_steps].
    - unfold buf_tell. cbn [bf_inner bf_rest].
      destruct (sr_seek_any s2 (SCurrent 0) (p + n) d2 Hsec2 ltac:(lia)) as (d3 & s3 & r & E3 & Hsec3 & I3 & R3 & H3); [right; exists 0; splits; auto; lia|].
      rewrite E3. destruct H3 as [(-> & H4 & H5)|(k & K & ->)]; [|right; exists k; split; auto]. rewrite zlen_nil. replace (p + n <? 0) with false by lia. cbn [rbind].
      destruct (Hrest d3 s3 Hsec3 I3 R3 H4 H5) as [->|(k & K & ->)]; cbn [rbind fst snd]; [left; rewrite I1; do 3 f_equal; lia|right; eauto].
    - unfold buf_here. cbn [bf_inner bf_rest].
      destruct (sr_seek_any s2 (SCurrent (- zlen (@nil Z))) (p + n) d2 Hsec2 ltac:(lia)) as (d3 & s3 & r & E3 & Hsec3 & I3 & R3 & H3); [right; exists (- zlen (@nil Z)); change (zlen (@nil Z)) with 0; splits; auto; lia|].
      rewrite E3. destruct H3 as [(-> & H4 & H5)|(k & K & ->)]; [|right; exists k; split; auto]. cbn [rbind].
      destruct (Hrest d3 s3 Hsec3 I3 R3 H4 H5) as [->|(k & K & ->)]; cbn [rbind fst snd]; [left; rewrite I1; do 3 f_equal; lia|right; eauto].
  Qed.

  (** The same access on a device whose reads are complete. *)
  Lemma device_access_ok img p n exact pos ss : 0 <= p -> 0 <= n -> p + n <= zlen img \/ exact = true /\ n = 0 ->
    exists pos', device_access p n exact (mkDev img pos [] (None :: ss)) = (mkDev img pos' [] ss, Ok (slice img p (p + n))) /\
      (ss = [] -> device_access p n exact (mkDev img pos [] []) = (mkDev img pos' [] [], Ok (slice img p (p + n)))).
  Proof.
    intros Hp Hn Hb. unfold slice. replace (p + n - p) with n by lia. assert (Hz : exact = true /\ n = 0 \/ zlen (ztake n (zdrop p img)) = n) by (rewrite zlen_ztake, zlen_zdrop; destruct Hb; [right; lia|auto]).
    assert (H : forall ss, exists pos', (if exact then dev_read_exact n else dev_read n) (mkDev img p [] ss) = (mkDev img pos' [] ss, Ok (ztake n (zdrop p img)))).
    { intros ss0. destruct exact.
      - unfold dev_read_exact. cbn [d_reads length plus dev_read_exact_loop]. destruct (n <=? 0) eqn:E0.
        { exists p. rewrite ztake_0 by lia. reflexivity. }
        destruct Hz as [Hz|Hz]; [lia|]. unfold dev_read. cbn [d_pos d_img d_reads d_seeks]. rewrite from_pos_nonneg by lia.
        destruct (ztake n (zdrop p img)) as [|x t] eqn:Es; [rewrite zlen_nil in Hz; lia|]. rewrite <- Es in *. rewrite Hz. replace (n - n <=? 0) with true by lia. eexists. reflexivity.
      - unfold dev_read. cbn [d_pos d_img d_reads d_seeks]. rewrite from_pos_nonneg by lia. eexists. reflexivity. }
    destruct (H ss) as (pos' & E). exists pos'. split; [unfold device_access, mbind, dev_seek; cbn [d_seeks d_img d_pos d_reads]; exact E|].
    intros ->. unfold device_access, mbind, dev_seek; cbn [d_seeks d_img d_pos d_reads]. exact E.
  Qed.

  Lemma stack_is_device {X} (pr : prog X) : asks_ok pr -> forall b d, sr_sector (bf_inner b) = sector -> zlen (d_img d) <= U64_MAX ->
    exists errors, (forall k, In (Some k) errors -> reports d k \/ k = UnexpectedEof) /\
      forall pos, snd (on_device pr (mkDev (d_img d) pos [] errors)) = on_shell_reader cap pr b d.
  Proof.
    induction pr as [x|p n exact next IH]; intros Ha b d Hb Hl.
    - exists []. split; [intros k []|reflexivity].
    - cbn [asks_ok] in Ha. destruct Ha as (Hp & Hn & Ha). destruct (shell_access_any b p n exact d Hb (proj1 Hp) Hn Hl) as (d' & b' & r & E & Hsec & I' & R' & F' & H).
      destruct (IH r (Ha r) b' d' Hsec ltac:(congruence)) as (errors & He & Hrun). cbn [on_shell_reader]. rewrite E.
      assert (Hgood : (p + n <= zlen (d_img d) \/ exact = true /\ n = 0) /\ r = Ok (slice (d_img d) p (p + n)) \/ exists k, (reports d k \/ k = UnexpectedEof) /\ r = Err (EIo k)).
      { destruct H as [[((_ & H) & ->)|(k & K & ->)]|(-> & -> & ->)]; [left; auto|right; exists k; split; auto; destruct K as [K|[K _]]; auto|].
        left. split; auto. unfold slice. now rewrite ztake_0 by lia. }
      destruct Hgood as [(Hg & ->)|(k & K & ->)].
      + exists (None :: errors). split; [intros k [C|H1]; [discriminate|destruct (He k H1); auto]|]. intros pos. cbn [on_device].
        destruct (device_access_ok (d_img d) p n exact pos errors (proj1 Hp) (proj1 Hn) Hg) as (pos' & E' & _). rewrite E'. rewrite I' in Hrun. apply Hrun.
      + exists (Some k :: errors). split; [intros k' [C|H1]; [injection C as <-; exact K|destruct (He k' H1); auto]|]. intros pos. cbn [on_device].
        unfold device_access, mbind, dev_seek. cbn [d_seeks d_img d_pos d_reads]. rewrite I' in Hrun. apply Hrun.
  Qed.

  Lemma stack_keeps {X} (pr : prog X) : asks_ok pr -> forall b d, sr_sector (bf_inner b) = sector -> zlen (d_img d) <= U64_MAX -> faultless d -> keeps_away sector cap (d_img d) pr ->
    forall pos, snd (on_device pr (mkDev (d_img d) pos [] [])) = on_shell_reader cap pr b d.
  Proof.
    induction pr as [x|p n exact next IH]; intros Ha b d Hb Hl Hf Hk pos; [reflexivity|].
    cbn [asks_ok keeps_away] in *. destruct Ha as (Hp & Hn & Ha). destruct Hk as (Hk & Hk').
    destruct (shell_access_any b p n exact d Hb (proj1 Hp) Hn Hl) as (d' & b' & r & E & Hsec & I' & R' & F' & H). cbn [on_shell_reader on_device]. rewrite E.
    assert (Hgood : (p + n <= zlen (d_img d) \/ exact = true /\ n = 0) /\ r = Ok (slice (d_img d) p (p + n))).
    { destruct H as [[((_ & H) & ->)|(k & [K|(_ & K)] & ->)]|(-> & -> & ->)]; [auto| |now destruct Hk|].
      - exfalso. destruct Hf as [F1 F2]. rewrite Forall_forall in F1, F2. destruct K as [K|K]; [exact (F1 _ K)|discriminate (F2 _ K)].
      - split; auto. unfold slice. now rewrite ztake_0 by lia. }
    destruct Hgood as (Hg & ->). destruct (device_access_ok (d_img d) p n exact pos [] (proj1 Hp) (proj1 Hn) Hg) as (pos' & _ & E'). rewrite (E' eq_refl).
    rewrite <- I'. apply IH; auto; rewrite I'; auto.
  Qed.

  Lemma stack_end b p n exact d : sr_sector (bf_inner b) = sector -> 0 <= p -> 0 <= n <= I64_MAX -> (exact = true -> 0 < n) -> zlen (d_img d) <= U64_MAX -> faultless d ->
    too_near sector cap (zlen (d_img d)) p n -> snd (snd (shell_access cap b p n exact d)) = Err (EIo UnexpectedEof).
  Proof.
    intros Hb Hp Hn He Hl Hf Ht. destruct (shell_access_any b p n exact d Hb Hp Hn Hl) as (d' & b' & r & E & _ & _ & _ & _ & H). rewrite E. cbn [snd].
    destruct H as [[((H & _) & _)|(k & [K|(-> & _)] & ->)]|(-> & -> & _)]; [now destruct H| |reflexivity|specialize (He eq_refl); lia].
    exfalso. destruct Hf as [F1 F2]. rewrite Forall_forall in F1, F2. destruct K as [K|K]; [exact (F1 _ K)|discriminate (F2 _ K)].
  Qed.
End Stack.

(** The places where the library uses its reader. *)
Lemma open_is_access d : ntfs_new d = on_device (Access 0 512 true (fun r => Return (let? b := r in ntfs_of_boot (decode_boot b)))) d.
Proof. unfold ntfs_new, device_access, mbind, mlift. cbn [on_device]. unfold device_access, mbind. destruct (dev_seek 0 d) as [d1 [x|e| |]]; try reflexivity. destruct (dev_read_exact 512 d1) as [d2 [y|e| |]]; reflexivity. Qed.
Lemma file_is_access nt p number d :
  file_new nt p number d = on_device (Access p (file_record_size nt) true (fun r => Return (let? data := r in file_of_bytes data (Some p) number))) d.
Proof. unfold file_new, mbind, mlift. cbn [on_device]. unfold device_access, mbind. destruct (dev_seek p d) as [d1 [x|e| |]]; try reflexivity. destruct (dev_read_exact (file_record_size nt) d1) as [d2 [y|e| |]]; reflexivity. Qed.
Lemma run_is_access r n d p : run_remaining r <> 0 -> r_pos r = Some p -> p + r_sp r <= U64_MAX ->
  run_read r n d = on_device (Access (p + r_sp r) (Z.min n (run_remaining r)) false
    (fun a => Return (match a with Ok bs => (mkRun (Some p) (r_alloc r) (r_sp r + zlen bs), Ok bs) | e => (r, e) end))) d.
Proof.
  intros H Hp Hb. unfold run_read. replace (run_remaining r =? 0) with false by lia. rewrite Hp. replace (U64_MAX <? p + r_sp r) with false by lia. cbn [on_device]. unfold device_access, mbind.
  destruct (dev_seek (p + r_sp r) d) as [d1 [x|e| |]]; try reflexivity. destruct (dev_read (Z.min n (run_remaining r)) d1) as [d2 [y|e| |]]; reflexivity.
Qed.
Lemma run_is_none r n d : run_remaining r = 0 \/ r_pos r = None \/ (exists p, r_pos r = Some p /\ U64_MAX < p + r_sp r) -> fst (run_read r n d) = d.
Proof.
  unfold run_read. intros H. destruct (run_remaining r =? 0) eqn:E; [reflexivity|]. destruct H as [H|[H|(p & Hp & Hb)]]; [lia|now rewrite H|]. rewrite Hp. replace (U64_MAX <? p + r_sp r) with true by lia. reflexivity.
Qed.

(** Opening the volume with the example program. *)
Definition open_prog : prog (res ntfs) := Access 0 512 true (fun r => Return (let? b := r in ntfs_of_boot (decode_boot b))).
Lemma stack_open d b : faultless d -> zlen (d_img d) <= U64_MAX -> buf_new SHELL_SECTOR = Ok b ->
  on_shell_reader SHELL_BUFFER open_prog b d = if zlen (d_img d) <? 12288 then Err (EIo UnexpectedEof) else snd (ntfs_new (plain_device (d_img d))).
Proof.
  intros Hf Hl Hb. assert (Hsec : sr_sector (bf_inner b) = SHELL_SECTOR) by (vm_compute in Hb; injection Hb as <-; reflexivity). clear Hb.
  assert (Hlt : 0 < SHELL_SECTOR <= 2 ^ 62) by (unfold SHELL_SECTOR; lia). assert (Hc : 0 < SHELL_BUFFER <= I64_MAX) by (unfold SHELL_BUFFER, I64_MAX; lia).
  assert (Ht : too_near SHELL_SECTOR SHELL_BUFFER (zlen (d_img d)) 0 512 <-> zlen (d_img d) < 12288) by (unfold too_near; change (round_down SHELL_SECTOR (0 + Z.max 512 SHELL_BUFFER) + SHELL_SECTOR) with 12288; reflexivity).
  destruct (zlen (d_img d) <? 12288) eqn:E.
  - unfold open_prog. cbn [on_shell_reader]. pose proof (stack_end _ _ Hlt Hc b 0 512 true d Hsec ltac:(lia) ltac:(unfold I64_MAX; lia) ltac:(lia) Hl Hf ltac:(apply Ht; lia)) as H.
    destruct (shell_access SHELL_BUFFER b 0 512 true d) as [d1 [b1 r]]. cbn [snd] in H. subst r. reflexivity.
  - rewrite open_is_access. symmetry. apply (stack_keeps _ _ Hlt Hc open_prog); auto.
    + unfold open_prog. cbn [asks_ok]. unfold U64_MAX, I64_MAX. splits; auto; lia.
    + unfold open_prog. cbn [keeps_away]. split; auto. rewrite Ht. lia.
Qed.
