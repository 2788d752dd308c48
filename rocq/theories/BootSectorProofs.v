(** * Proofs about opening a volume. *)
From Verif Require Import Base Dev Types BootSector Spec BaseProofs DevProofs.

Lemma is_power_of_two_spec n : is_power_of_two n = true <-> power_of_two n.
Proof.
  unfold is_power_of_two, power_of_two. split.
  - intros H. apply andb_prop in H as (H1 & H2). apply Z.ltb_lt in H1. apply Z.eqb_eq in H2.
    exists (Z.log2 n). split; [apply Z.log2_nonneg|].
    pose proof (Z.log2_spec n H1) as (L1 & L2). pose proof (Z.log2_nonneg n) as L0.
    destruct (Z.eq_dec n (2 ^ Z.log2 n)) as [|Hne]; auto. exfalso.
    assert (Hm : Z.log2 (n - 1) = Z.log2 n). { apply Z.log2_unique; lia. }
    assert (Hpos : 0 < 2 ^ Z.log2 n) by (apply Z.pow_pos_nonneg; lia).
    assert (Ht : Z.testbit (Z.land n (n - 1)) (Z.log2 n) = true).
    { rewrite Z.land_spec, Z.bit_log2 by lia. rewrite <- Hm at 1. now rewrite Z.bit_log2 by lia. }
    rewrite H2, Z.bits_0 in Ht. discriminate.
  - intros (k & Hk & ->). assert (0 < 2 ^ k) by (apply Z.pow_pos_nonneg; lia).
    replace (0 <? 2 ^ k) with true by lia. cbn [andb]. apply Z.eqb_eq.
    replace (2 ^ k - 1) with (Z.ones k) by (rewrite Z.ones_equiv; lia). rewrite Z.land_ones by lia. apply Z.mod_same. lia.
Qed.

Lemma spc_spec b : 0 <= bs_sectors_per_cluster b <= 255 ->
  match bpb_sectors_per_cluster b with
  | Ok s => sectors_per_cluster_code (bs_sectors_per_cluster b) s /\ 1 <= s <= 4096
  | Err _ => forall s, ~ sectors_per_cluster_code (bs_sectors_per_cluster b) s
  | _ => False
  end.
Proof.
  intros Hc. unfold bpb_sectors_per_cluster, sectors_per_cluster_code. set (c := bs_sectors_per_cluster b) in *.
  destruct (128 <? c) eqn:E1.
  - unfold to_i8. replace (c <=? 127) with false by lia. replace (- (c - 256)) with (256 - c) by lia.
    destruct (12 <? 256 - c) eqn:E2; [intros s [?|?]; lia|]. rewrite Z.shiftl_1_l. split; [right; lia|].
    split; [change 1 with (2 ^ 0)|change 4096 with (2 ^ 12)]; apply Z.pow_le_mono_r; lia.
  - destruct ((c <? 1) || negb (is_power_of_two c)) eqn:E2.
    + intros s [(H1 & H2 & H3)|?]; [|lia]. apply is_power_of_two_spec in H2. rewrite H2 in E2. cbn in E2. lia.
    + apply orb_false_iff in E2 as (E2 & E3). apply negb_false_iff, is_power_of_two_spec in E3. split; [left|]; repeat split; auto; lia.
Qed.

Lemma sector_spec b :
  match bpb_sector_size b with
  | Ok s => s = bs_sector_size b /\ power_of_two s /\ 512 <= s <= 4096
  | Err _ => ~ (power_of_two (bs_sector_size b) /\ 512 <= bs_sector_size b <= 4096)
  | _ => False
  end.
Proof.
  unfold bpb_sector_size. destruct (_ || _) eqn:E.
  - intros (H1 & H2). apply is_power_of_two_spec in H1. rewrite H1 in E. lia.
  - apply orb_false_iff in E as (E1 & E2). apply negb_false_iff, is_power_of_two_spec in E2. repeat split; auto; lia.
Qed.

Definition describes (b : boot_sector) sector cluster :=
  (sector = bs_sector_size b /\ power_of_two sector /\ 512 <= sector <= 4096) /\
  exists spc, sectors_per_cluster_code (bs_sectors_per_cluster b) spc /\ cluster = spc * sector /\ 512 <= cluster <= 2097152.

Lemma spc_fun c s1 s2 : sectors_per_cluster_code c s1 -> sectors_per_cluster_code c s2 -> s1 = s2.
Proof. intros [(?&?&->)|(?&->)] [(?&?&->)|(?&->)]; auto; lia. Qed.

Lemma cluster_spec b : 0 <= bs_sectors_per_cluster b <= 255 ->
  match bpb_cluster_size b with
  | Ok c => bpb_sector_size b = Ok (bs_sector_size b) /\ describes b (bs_sector_size b) c
  | Err _ => forall s c, ~ describes b s c
  | _ => False
  end.
Proof.
  intros Hc. unfold bpb_cluster_size, describes. pose proof (spc_spec b Hc) as H1. pose proof (sector_spec b) as H2.
  destruct (bpb_sectors_per_cluster b) as [spc| | |]; cbn [rbind]; auto.
  2: { intros s c (_ & x & Hx & _). apply (H1 _ Hx). }
  destruct (bpb_sector_size b) as [s| | |]; cbn [rbind]; auto.
  2: { intros s c ((-> & H3 & H4) & _). tauto. }
  destruct H1 as (H1 & H3). destruct H2 as (-> & H4 & H5).
  replace (U32_MAX <? _) with false by (unfold U32_MAX; nia). destruct (negb _) eqn:E.
  - intros s c ((-> & _) & x & Hx & -> & Hr). rewrite (spc_fun _ _ _ Hx H1) in Hr. lia.
  - split; auto. split; auto. exists spc. repeat split; auto; lia.
Qed.

Lemma to_i8_bounds x : 0 <= x <= 255 -> -128 <= to_i8 x <= 127.
Proof. intros. unfold to_i8. destruct (_ <=? _) eqn:E; lia. Qed.

Lemma ntfs_of_boot_spec b : zlen b = 512 -> bytes_ok b ->
  match ntfs_of_boot (decode_boot b) with
  | Ok n => exists mft, boot_describes b (sector_size n) (cluster_size n) (ntfs_size n) mft (file_record_size n) (serial_number n) /\
              mft_position n = Some mft /\ upcase_table n = None
  | Err _ => forall a b' c d e f, ~ boot_describes b a b' c d e f
  | _ => False
  end.
Proof.
  intros Hl Hb. unfold ntfs_of_boot, boot_validate. cbn [decode_boot bs_signature].
  destruct (list_eqb _ _) eqn:E1; cbn [negb rbind].
  2: { intros a b' c d e f [B _ _ _ _ _ _]. apply list_eqb_eq in B. congruence. }
  apply list_eqb_eq in E1.
  pose proof (cluster_spec (decode_boot b) (field1_bound b 13 Hb)) as Hc.
  destruct (bpb_cluster_size (decode_boot b)) as [cs| | |] eqn:Ec; cbn [rbind]; auto.
  2: { intros a b' c d e' f [B1 B2 B3 B4 B5 B6 B7]. apply (Hc a b'). split; auto. }
  destruct Hc as (Hs & (Hd1 & spc & Hspc & -> & Hcs)). rewrite Hs. cbn [rbind].
  set (ss := bs_sector_size (decode_boot b)) in *. cbn [decode_boot bs_sectors_per_cluster] in Hspc.
  assert (Huniq : forall a c, a = field 2 b 11 -> (exists s, sectors_per_cluster_code (field 1 b 13) s /\ c = s * a /\ 512 <= c <= 2097152) ->
            a = ss /\ c = spc * ss).
  { intros a c -> (s & H1 & -> & _). rewrite (spc_fun _ _ _ H1 Hspc). auto. }
  destruct (checked_mul64 _ ss) as [sz|] eqn:E2; cbn [rbind].
  2: { intros a b' c d e f [B1 (B2 & B2') B3 B4 B5 B6 B7]. destruct (Huniq a b' B2 B3) as (-> & ->).
       cbn [decode_boot bs_total_sectors] in E2. unfold checked_mul64 in E2. destruct (_ <=? _) eqn:E; [discriminate|lia]. }
  apply checked_mul64_some in E2 as (-> & E2). cbn [decode_boot bs_total_sectors] in *.
  unfold bpb_record_size. rewrite Ec. cbn [rbind bs_file_record_size_info decode_boot].
  pose proof (field1_bound b 64 Hb) as Hfr. pose proof (to_i8_bounds _ Hfr) as Hi8.
  assert (Hrec : match (if 0 <? to_i8 (field 1 b 64)
       then if spc * ss * to_i8 (field 1 b 64) <=? U32_MAX then Ok (spc * ss * to_i8 (field 1 b 64)) else Err (EInvalidRecordSizeInfo (to_i8 (field 1 b 64)) (spc * ss))
       else if negb ((10 <=? Z.abs (to_i8 (field 1 b 64))) && (Z.abs (to_i8 (field 1 b 64)) <=? 12)) then Err (EInvalidRecordSizeInfo (to_i8 (field 1 b 64)) (spc * ss)) else Ok (Z.shiftl 1 (Z.abs (to_i8 (field 1 b 64)))))
     with Ok r => record_size_code (field 1 b 64) (spc * ss) r | Err _ => forall r, ~ record_size_code (field 1 b 64) (spc * ss) r | _ => False end).
  { unfold record_size_code. destruct (0 <? to_i8 _) eqn:E3.
    - assert (Hp : to_i8 (field 1 b 64) = field 1 b 64 /\ field 1 b 64 <= 127 /\ 1 <= field 1 b 64).
      { unfold to_i8 in *. destruct (_ <=? 127) eqn:E; lia. }
      destruct Hp as (-> & Hp1 & Hp2). replace (_ <=? U32_MAX) with true by (unfold U32_MAX; nia). left. split; auto. lia.
    - assert (Hp : field 1 b 64 = 0 /\ to_i8 (field 1 b 64) = 0 \/ 128 <= field 1 b 64 /\ Z.abs (to_i8 (field 1 b 64)) = 256 - field 1 b 64).
      { unfold to_i8 in *. destruct (_ <=? 127) eqn:E; lia. }
      destruct Hp as [(Hp & ->)|(Hp & ->)].
      + cbn. intros r [?|?]; lia.
      + destruct (negb _) eqn:E4.
        * intros r [?|?]; lia.
        * rewrite Z.shiftl_1_l. right. lia. }
  match type of Hrec with match ?x with _ => _ end => set (X := x) in * end.
  destruct X as [frs| | |]; cbn [rbind]; auto.
  2: { intros a b' c d e' f [B1 (B2 & B2') B3 B4 B5 B6 B7]. destruct (Huniq a b' B2 B3) as (-> & ->). apply (Hrec _ B6). }
  unfold bpb_mft_lcn. cbn [decode_boot bs_mft_lcn].
  destruct (0 <? field 8 b 48) eqn:E5; cbn [rbind].
  2: { intros a b' c d e' f [B1 (B2 & B2') B3 B4 B5 B6 B7]. lia. }
  unfold lcn_position. destruct (checked_mul64 (field 8 b 48) _) as [m|] eqn:E6; cbn [rbind].
  2: { intros a b' c d e' f [B1 (B2 & B2') B3 B4 B5 B6 B7]. destruct (Huniq a b' B2 B3) as (-> & ->).
       unfold checked_mul64 in E6. destruct (_ <=? _) eqn:E; [discriminate|lia]. }
  apply checked_mul64_some in E6 as (-> & E6). exists (field 8 b 48 * (spc * ss)).
  cbn [sector_size cluster_size ntfs_size mft_position file_record_size serial_number upcase_table].
  split; [split|]; auto; cbn [decode_boot bs_serial_number]; try solve [repeat split; auto; lia]; try solve [exists spc; auto].
  split; auto. unfold pos_new. replace (_ =? 0) with false by nia. reflexivity.
Qed.

Lemma ntfs_new_spec d : bytes_ok (d_img d) -> faultless d ->
  exists d' r, ntfs_new d = (d', r) /\ d_img d' = d_img d /\
   ((zlen (d_img d) < 512 /\ r = Err (EIo UnexpectedEof)) \/
    (512 <= zlen (d_img d) /\ r = ntfs_of_boot (decode_boot (ztake 512 (d_img d))))).
Proof.
  intros Hb Hf. unfold ntfs_new, mbind, mlift. destruct (dev_seek_faultless 0 d Hf) as (d1 & E1 & Hf1 & Hp1 & Hi1 & _). rewrite E1.
  destruct (Z_lt_le_dec (zlen (d_img d)) 512) as [Hlt|Hge].
  - destruct (dev_read_exact_eof 512 d1) as (d2 & E2 & Hf2 & Hi2 & _); auto; try lia; [rewrite Hi1, Hp1; lia|]. rewrite E2.
    do 2 eexists; split; [reflexivity|]. split; [congruence|]. auto.
  - destruct (dev_read_exact_ok 512 d1) as (d2 & E2 & Hf2 & Hi2 & _); auto; try lia; [rewrite Hi1, Hp1; lia|]. rewrite E2.
    rewrite Hp1, Hi1, zdrop_0 by lia.
    do 2 eexists; split; [reflexivity|]. split; [congruence|]. right; split; auto.
Qed.

Lemma boot_describes_fun b a1 b1 c1 d1 e1 f1 a2 b2 c2 d2 e2 f2 :
  boot_describes b a1 b1 c1 d1 e1 f1 -> boot_describes b a2 b2 c2 d2 e2 f2 ->
  (a1, b1, c1, d1, e1, f1) = (a2, b2, c2, d2, e2, f2).
Proof.
  intros [B1 (B2 & _) (s1 & B3 & B3' & _) (B4 & _) (B5 & _) B6 B7] [C1 (C2 & _) (s2 & C3 & C3' & _) (C4 & _) (C5 & _) C6 C7].
  rewrite (spc_fun _ _ _ B3 C3) in *. subst. f_equal; f_equal.
  destruct B6 as [(?&->)|(?&->)], C6 as [(?&->)|(?&->)]; auto; lia.
Qed.

Lemma power_of_two_mul a b : power_of_two a -> power_of_two b -> power_of_two (a * b).
Proof. intros (j & Hj & ->) (k & Hk & ->). exists (j + k). split; [lia|]. now rewrite Z.pow_add_r. Qed.

Lemma bytes_ok_of_take n l : bytes_ok l -> bytes_ok (ztake n l).
Proof. apply bytes_ok_ztake. Qed.

Lemma open_spec d : bytes_ok (d_img d) -> faultless d ->
  (zlen (d_img d) < 512 -> snd (ntfs_new d) = Err (EIo UnexpectedEof)) /\
  (512 <= zlen (d_img d) ->
     match snd (ntfs_new d) with
     | Ok n => exists mft, boot_describes (ztake 512 (d_img d)) (sector_size n) (cluster_size n) (ntfs_size n) mft (file_record_size n)
                             (serial_number n) /\ mft_position n = Some mft /\ 0 < mft /\ power_of_two (cluster_size n)
     | Err _ => forall sector cluster size mft record serial,
                  ~ boot_describes (ztake 512 (d_img d)) sector cluster size mft record serial
     | _ => False
     end).
Proof.
  intros Hb Hf. destruct (ntfs_new_spec d Hb Hf) as (d' & r & E & _ & Hc). rewrite E. cbn [snd]. split; intros Hl.
  - destruct Hc as [(_ & ->)|]; [auto|lia].
  - destruct Hc as [|(_ & ->)]; [lia|].
    pose proof (ntfs_of_boot_spec (ztake 512 (d_img d))) as H. destruct (ntfs_of_boot _) as [n| | |].
    + destruct H as (mft & B & Hm & _); [rewrite zlen_ztake; lia|now apply bytes_ok_ztake|]. exists mft. split; auto. split; auto.
      destruct B as [_ (_ & B2 & B2') (spc & B3 & B3' & B3'') _ (B5 & B5' & _) _ _]. split; [nia|].
      rewrite B3'. apply power_of_two_mul; auto. destruct B3 as [(_ & B & ->)|(B & ->)]; auto. exists (256 - field 1 (ztake 512 (d_img d)) 13). split; [lia|auto].
    + intros. apply H; [rewrite zlen_ztake; lia|now apply bytes_ok_ztake].
    + apply H; [rewrite zlen_ztake; lia|now apply bytes_ok_ztake].
    + apply H; [rewrite zlen_ztake; lia|now apply bytes_ok_ztake].
Qed.
