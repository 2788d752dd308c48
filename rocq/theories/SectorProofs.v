(** * The sector-aligned reader. *)
From Verif Require Import Base Dev Spec SpecMisc SectorReader BaseProofs DevProofs.

Lemma is_pow2_pos n : is_pow2 n = true -> 0 < n.
Proof. unfold is_pow2. intros H. apply andb_true_iff in H as [H _]. lia. Qed.

Section SR.
  Context (sector : Z) (Hs : 0 < sector).

  Lemma down_eq p n : align_down (mkSR sector p) n = round_down sector n.
  Proof. unfold align_down, round_down. cbn. rewrite (Z.mod_eq n sector) by lia. lia. Qed.
  Lemma down_bounds n : 0 <= n -> 0 <= round_down sector n <= n /\ n < round_down sector n + sector /\ round_down sector n mod sector = 0.
  Proof.
    intros H. unfold round_down. pose proof (Z.mod_pos_bound n sector Hs). pose proof (Z.mod_le n sector ltac:(lia) Hs).
    repeat split; try lia. rewrite (Z.mod_eq n sector) by lia. replace (n - (n - sector * (n / sector))) with (n / sector * sector) by lia.
    apply Z.mod_mul. lia.
  Qed.
  Lemma down_add a n : a mod sector = 0 -> round_down sector (a + n) = a + round_down sector n.
  Proof.
    intros H. unfold round_down. rewrite Z.add_mod, H, Z.add_0_l, Z.mod_mod by lia. lia.
  Qed.

  (** A seek that is not relative to the end. *)
  Lemma sr_seek_ok p sf d len : faultless d -> 0 <= p <= U64_MAX -> (forall k, sf <> SEnd k) -> seek_arg_ok sf ->
    let q := seek_target len p sf in 0 <= q <= U64_MAX ->
    exists d', sr_seek (mkSR sector p) sf d = (d', (mkSR sector q, Ok q)) /\ faultless d' /\ d_img d' = d_img d /\ d_pos d' = round_down sector q.
  Proof.
    intros Hf Hp He Ha q Hq.
    assert (E : exists d', match dev_seek (align_down (mkSR sector p) q) d with
          | (d', Ok _) => (d', (mkSR sector q, Ok q))
          | (d', Err e) => (d', (mkSR sector p, Err e))
          | (d', Panic) => (d', (mkSR sector p, Panic))
          | (d', OutOfFuel) => (d', (mkSR sector p, OutOfFuel))
          end = (d', (mkSR sector q, Ok q)) /\ faultless d' /\ d_img d' = d_img d /\ d_pos d' = round_down sector q).
    { rewrite down_eq. destruct (dev_seek_faultless (round_down sector q) d Hf) as (d' & Ed & H1 & H2 & H3 & H4). rewrite Ed. eauto 10. }
    unfold sr_seek. cbn [sr_pos sr_sector]. destruct sf as [n|n|n]; [exact E|now destruct (He n)|].
    destruct (0 <=? n) eqn:En.
    - rewrite (proj2 (checked_add64_some p n q)); [exact E|]. cbn in q, Hq. unfold q in *. split; lia.
    - rewrite (proj2 (checked_sub64_some p ((- n) mod TWO64) q)); [exact E|].
      cbn in Ha, q, Hq. unfold TWO64, I64_MIN, U64_MAX in *. rewrite Z.mod_small by lia. unfold q in *. split; lia.
  Qed.

  (** A read right after it. *)
  Lemma sr_read_ok q n d : faultless d -> 0 <= q -> 0 <= n -> zlen (d_img d) <= U64_MAX -> d_pos d = round_down sector q ->
    round_down sector (q + n) + sector <= zlen (d_img d) ->
    exists d', sr_read (mkSR sector q) n d = (d', (mkSR sector (q + n), Ok (slice (d_img d) q (q + n)))) /\ faultless d' /\ d_img d' = d_img d /\
      d_pos d' mod sector = 0.
  Proof.
    intros Hf Hq Hn Hl Hp Hend. unfold sr_read. cbn [sr_pos sr_sector]. unfold align_up. rewrite !down_eq. cbn [sr_sector].
    destruct (down_bounds q Hq) as (B1 & B2 & B3). set (a := round_down sector q) in *.
    pose proof (down_add a (q - a + n) B3) as E. replace (a + (q - a + n)) with (q + n) in E by lia.
    destruct (down_bounds (q - a + n) ltac:(lia)) as (C1 & C2 & C3). set (b := round_down sector (q - a + n)) in *.
    replace (U64_MAX <? b + sector) with false by lia.
    destruct (dev_read_exact_ok (b + sector) d Hf ltac:(lia) ltac:(lia) ltac:(lia)) as (d' & Ed & H1 & H2 & H3 & H4). rewrite Ed.
    assert (Hz : zlen (ztake (b + sector) (zdrop (d_pos d) (d_img d))) = b + sector) by (rewrite zlen_ztake, zlen_zdrop; lia).
    unfold idx_range. rewrite get_range_in by lia. replace (U64_MAX <? q + n) with false by lia.
    exists d'. split; [|split; auto; split; auto]. 
    - do 3 f_equal. unfold slice. rewrite Hp. fold a.
      rewrite zdrop_ztake by lia. rewrite ztake_ztake, zdrop_zdrop by lia. f_equal; [lia|]. f_equal. lia.
    - rewrite H3, Hp. fold a. rewrite Z.add_mod, B3, Z.add_0_l, Z.mod_mod, Z.add_mod, C3, Z.mod_same by lia. apply Z.mod_0_l. lia.
  Qed.

  (** Past the end of the device. *)
  Lemma sr_read_eof q n d : faultless d -> 0 <= q -> 0 <= n -> q + n + sector <= U64_MAX -> d_pos d = round_down sector q ->
    zlen (d_img d) < round_down sector (q + n) + sector ->
    exists d', sr_read (mkSR sector q) n d = (d', (mkSR sector q, Err (EIo UnexpectedEof))) /\ faultless d' /\ d_img d' = d_img d.
  Proof.
    intros Hf Hq Hn Hl Hp Hend. unfold sr_read. cbn [sr_pos sr_sector]. unfold align_up. rewrite !down_eq. cbn [sr_sector].
    destruct (down_bounds q Hq) as (B1 & B2 & B3). set (a := round_down sector q) in *.
    pose proof (down_add a (q - a + n) B3) as E. replace (a + (q - a + n)) with (q + n) in E by lia.
    destruct (down_bounds (q - a + n) ltac:(lia)) as (C1 & C2 & C3). set (b := round_down sector (q - a + n)) in *.
    replace (U64_MAX <? b + sector) with false by lia.
    destruct (dev_read_exact_eof (b + sector) d Hf ltac:(lia) ltac:(lia) ltac:(lia)) as (d' & Ed & H1 & H2 & _). rewrite Ed. eauto.
  Qed.

  Lemma sr_history img : zlen img <= U64_MAX -> forall l p d, faultless d -> d_img d = img -> 0 <= p <= U64_MAX -> pairs_ok sector (zlen img) p l ->
    reader_run sr_read sr_seek (mkSR sector p) d (flat_map seek_then_read l) = cursor_run img (zlen img) p (flat_map seek_then_read l).
  Proof.
    intros Hl. induction l as [|(sf & n) l IH]; intros p d Hf Hi Hp Hok; [reflexivity|].
    cbn [pairs_ok] in Hok. destruct Hok as (He & Ha & Hq & Hn & Hend & Hrest).
    cbn [flat_map seek_then_read fst snd app reader_run cursor_run reader_step cursor_step].
    set (q := seek_target (zlen img) p sf) in *.
    assert (Hqn : q + n <= zlen img). { destruct (down_bounds (q + n)) as (B1 & B2 & B3); lia. }
    destruct (sr_seek_ok p sf d (zlen img) Hf Hp He Ha ltac:(fold q; lia)) as (d1 & E1 & F1 & I1 & P1). fold q in E1, P1. rewrite E1.
    replace ((0 <=? q) && (q <=? U64_MAX)) with true by lia.
    destruct (sr_read_ok q n d1 F1 ltac:(lia) Hn ltac:(rewrite I1, Hi; lia) P1 ltac:(rewrite I1, Hi; lia)) as (d2 & E2 & F2 & I2 & P2). rewrite E2.
    rewrite I1, Hi. unfold slice. replace (q + n - q) with n by lia.
    replace (zlen (ztake n (zdrop q img))) with n by (rewrite zlen_ztake, zlen_zdrop; lia).
    do 2 f_equal. apply IH; auto; [congruence|lia].
  Qed.
End SR.

Lemma sr_pair_aligned sector p sf n d : 0 < sector -> faultless d -> zlen (d_img d) <= U64_MAX -> 0 <= p <= U64_MAX ->
  pairs_ok sector (zlen (d_img d)) p [(sf, n)] ->
  exists d1 s1 d2 s2 q bs, sr_seek (mkSR sector p) sf d = (d1, (s1, Ok q)) /\ d_pos d1 mod sector = 0 /\
    sr_read s1 n d1 = (d2, (s2, Ok bs)) /\ d_pos d2 mod sector = 0.
Proof.
  intros Hs Hf Hl Hp (He & Ha & Hq & Hn & Hend & _). set (q := seek_target (zlen (d_img d)) p sf) in *.
  destruct (down_bounds sector Hs (q + n) ltac:(lia)) as (B1 & B2 & B3).
  destruct (sr_seek_ok sector Hs p sf d (zlen (d_img d)) Hf Hp He Ha ltac:(fold q; lia)) as (d1 & E1 & F1 & I1 & P1). fold q in E1, P1.
  destruct (sr_read_ok sector Hs q n d1 F1 ltac:(lia) Hn ltac:(rewrite I1; lia) P1 ltac:(rewrite I1; lia)) as (d2 & E2 & F2 & I2 & P2).
  exists d1, (mkSR sector q), d2, (mkSR sector (q + n)), q. eexists. split; [exact E1|]. split; [|eauto].
  rewrite P1. apply (down_bounds sector Hs q Hq).
Qed.
