(** * Proofs for C62: what error messages say. *)
From Coq Require Import Lia.
From Verif Require Import Base Dev Types Record DataRuns Stream NonResident Resident BootSector Attribute File Structured AttrList Index Spec SpecErrors
  BaseProofs DevProofs DataRunsProofs RecordProofs BootSectorProofs AttributeProofs FileProofs StructuredProofs ReaderProofs ShellInfoProofs.

Lemma Err_inj {A} (x y : err) : @Err A x = Err y -> x = y.
Proof. congruence. Qed.
Ltac inj := let K := fresh in intros K; apply Err_inj in K; subst.
Ltac msg := cbv beta iota zeta delta [record_message record_misleading file_message index_record_message exchanged];
  repeat apply conj; solve [reflexivity | lia | assumption].

(** ** The boot sector *)
Lemma to_i8_mod x : 0 <= x <= 255 -> -128 <= to_i8 x <= 127 /\ to_i8 x mod 256 = x.
Proof.
  intros H. unfold to_i8. destruct (x <=? 127) eqn:E; [rewrite Z.mod_small; lia|]. replace (x - 256) with (x + (-1) * 256) by lia. rewrite Z_mod_plus_full, Z.mod_small; lia.
Qed.
Section Boot.
  Context (b : list Z) (Hb : bytes_ok b).
  Lemma cluster_size_error e : bpb_cluster_size (decode_boot b) = Err e -> boot_message b e \/ boot_misleading b e.
  Proof.
    unfold bpb_cluster_size. pose proof (field1_bound b 13 Hb) as H13.
    pose proof (spc_spec (decode_boot b) H13) as H1. pose proof (sector_spec (decode_boot b)) as H2. unfold bpb_sectors_per_cluster, bpb_sector_size in *.
    cbn [decode_boot bs_sectors_per_cluster bs_sector_size] in *. set (c := field 1 b 13) in *. set (s := field 2 b 11) in *.
    destruct (if 128 <? c then _ else _) as [spc|x| |] eqn:Es; cbn [rbind]; try discriminate.
    2: { intros [= ->]. left. assert (e = EInvalidSectorsPerCluster c) as ->.
      { destruct (128 <? c); [destruct (12 <? _)|destruct (_ || _)]; congruence. } split; [reflexivity|exact H1]. }
    destruct (if negb ((512 <=? s) && (s <=? 4096)) || _ then _ else _) as [ss|x| |] eqn:Ess; cbn [rbind]; try discriminate.
    2: { intros [= ->]. destruct (negb ((512 <=? s) && (s <=? 4096)) || negb (is_power_of_two s)) eqn:Ec; [|discriminate]. injection Ess as <-.
      destruct (Z_le_gt_dec 512 s) as [L1|L1]; [destruct (Z_le_gt_dec s 4096) as [L2|L2]|]; [right|left|left]; cbn [boot_message].
      - unfold boot_misleading. fold s. split; auto. split; [lia|]. tauto.
      - repeat split; auto. lia.
      - repeat split; auto. lia. }
    assert (ss = s) as -> by (destruct (_ || _) in Ess; congruence).
    destruct (U32_MAX <? _) eqn:Eu; [discriminate|]. destruct (negb ((512 <=? spc * s) && _)) eqn:En; [|discriminate]. intros [= <-]. left.
    split; [reflexivity|]. split; [reflexivity|]. split; [exists spc; split; [apply H1|reflexivity]|]. lia.
  Qed.
  Lemma cluster_size_ok cs : bpb_cluster_size (decode_boot b) = Ok cs -> cluster_size_in b cs /\ 512 <= cs <= 2097152 /\ bpb_sector_size (decode_boot b) = Ok (field 2 b 11).
  Proof.
    intros H. pose proof (cluster_spec (decode_boot b) (field1_bound b 13 Hb)) as K. rewrite H in K. destruct K as (K & _ & spc & K1 & -> & K2).
    split; [exists spc; auto|]. split; auto.
  Qed.
  Lemma boot_error e : ntfs_of_boot (decode_boot b) = Err e -> boot_message b e \/ boot_misleading b e.
  Proof.
    unfold ntfs_of_boot, boot_validate. cbn [decode_boot bs_signature bs_total_sectors bs_file_record_size_info bs_serial_number].
    destruct (list_eqb _ _) eqn:E0; cbn [negb rbind].
    2: { intros [= <-]. left. repeat split; auto. intros K. rewrite K in E0. discriminate. }
    destruct (bpb_cluster_size _) as [cs|x| |] eqn:E1; cbn [rbind]; try discriminate; [|intros [= ->]; now apply cluster_size_error].
    destruct (cluster_size_ok cs E1) as (Hc & Hcs & E2). rewrite E2. cbn [rbind].
    destruct (checked_mul64 _ _) as [size|] eqn:E3; cbn [rbind].
    2: { intros [= <-]. left. split; auto. unfold checked_mul64 in E3. destruct (_ <=? _) eqn:E; [discriminate|lia]. }
    unfold bpb_record_size. rewrite E1. cbn [rbind]. destruct (to_i8_mod _ (field1_bound b 64 Hb)) as (Hi & Hm). set (info := to_i8 (field 1 b 64)) in *.
    pose proof (field1_bound b 64 Hb) as H64.
    assert (Hinfo : 0 < info /\ info = field 1 b 64 \/ info <= 0 /\ (field 1 b 64 = 0 /\ info = 0 \/ info = field 1 b 64 - 256)).
    { unfold info, to_i8. destruct (_ <=? 127) eqn:E; lia. }
    assert (Hrec : (exists r, (if 0 <? info then if cs * info <=? U32_MAX then Ok (cs * info) else Err (EInvalidRecordSizeInfo info cs)
                     else if negb ((10 <=? Z.abs info) && (Z.abs info <=? 12)) then Err (EInvalidRecordSizeInfo info cs) else Ok (Z.shiftl 1 (Z.abs info))) = Ok r) \/
      (if 0 <? info then if cs * info <=? U32_MAX then Ok (cs * info) else Err (EInvalidRecordSizeInfo info cs)
                     else if negb ((10 <=? Z.abs info) && (Z.abs info <=? 12)) then Err (EInvalidRecordSizeInfo info cs) else Ok (Z.shiftl 1 (Z.abs info))) = Err (EInvalidRecordSizeInfo info cs) /\
      forall size, ~ record_size_code (field 1 b 64) cs size).
    { destruct (0 <? info) eqn:Ep.
      - destruct (cs * info <=? U32_MAX) eqn:Eu; [left; eauto|]. exfalso. unfold U32_MAX in Eu. nia.
      - destruct (negb _) eqn:En; [right|left; eauto]. split; auto. unfold record_size_code. intros sz [K|K]; lia. }
    destruct Hrec as [(r & ->)|(-> & Hr)]; cbn [rbind].
    2: { intros [= <-]. left. split; auto. }
    unfold bpb_mft_lcn. cbn [decode_boot bs_mft_lcn]. pose proof (field8_bound b 48 Hb).
    destruct (0 <? field 8 b 48) eqn:E5; cbn [rbind]; [|intros [= <-]; left; cbn; lia].
    unfold lcn_position. destruct (checked_mul64 (field 8 b 48) cs) eqn:E6; cbn [rbind]; [discriminate|]. intros [= <-]. left. split; auto. exists cs. split; auto.
    unfold checked_mul64 in E6. destruct (_ <=? _) eqn:E; [discriminate|lia].
  Qed.
End Boot.
Lemma open_error d e : bytes_ok (d_img d) -> faultless d -> 512 <= zlen (d_img d) -> snd (ntfs_new d) = Err e ->
  boot_message (ztake 512 (d_img d)) e \/ boot_misleading (ztake 512 (d_img d)) e.
Proof.
  intros Hb Hf Hl. unfold ntfs_new, mbind. destruct (dev_seek_faultless 0 d Hf) as (d1 & -> & F1 & P1 & I1 & _).
  destruct (dev_read_exact_ok 512 d1) as (d2 & E2 & F2 & I2 & _); auto; try lia; [rewrite P1, I1; lia|]. rewrite E2. cbn [mlift snd].
  rewrite P1, I1. intros H. rewrite zdrop_0 in H by lia. apply boot_error; [now apply bytes_ok_ztake|exact H].
Qed.

(** ** Records *)
Lemma fixup_error data p r e : bytes_ok data -> 8 <= zlen data <= U16_MAX -> 0 < p -> p + zlen data <= TWO64 -> fixup (mkRecord data (Some p)) = (r, Err e) ->
  record_message data p e \/ record_misleading data p e.
Proof.
  intros Hb Hl Hp Hp2 H. destruct (fixup_spec data (Some p) Hb Hl) as (data' & out & E & _ & Hc). rewrite H in E. injection E as -> <-.
  destruct Hc as [(Hn & _ & _)|(Hfit & _ & [(K & _)|(i & Hi & Hne & K & Hpre)])].
  - revert H. unfold fixup, update_sequence_number, update_sequence_array_count, update_sequence_array_start, update_sequence_size, update_sequence_offset.
    cbn [rec_data rec_position]. unfold rd_u16. rewrite !rd_in by lia. cbn [rbind]. pose proof (field2_bound data 4 Hb). pose proof (field2_bound data 6 Hb).
    destruct (get_range data (field 2 data 4) (field 2 data 4 + 2)) as [usn|] eqn:E1; cbn [rbind].
    2: { intros [= _ <-]. left. apply get_range_none in E1. msg. }
    destruct (field 2 data 6 <? 1) eqn:E2; cbn [rbind]. { intros [= _ <-]. left. msg. }
    apply get_range_some in E1 as (_ & E1 & ->).
    replace (U16_MAX <? _) with false by lia. cbn [rbind]. unfold NTFS_BLOCK_SIZE.
    destruct ((zlen data <? _) || _) eqn:E3; cbn [rbind].
    + intros [= _ <-]. destruct (Z_le_gt_dec (512 * (field 2 data 6 - 1)) (zlen data)); [right|left]; msg.
    + exfalso. apply Hn. unfold usa_fits. lia.
  - discriminate.
  - injection K as ->. right. split; auto. split; auto. exists i. split; auto. split; [|split; auto].
    destruct Hfit as (_ & _ & Hf & _). apply pos_add_sane with (len := zlen data); pose proof (field2_bound data 4 Hb); lia.
Qed.
Lemma fixup_fields data p r : bytes_ok data -> 8 <= zlen data <= U16_MAX -> fixup (mkRecord data p) = (r, Ok tt) ->
  rec_position r = p /\ zlen (rec_data r) = zlen data /\ forall n o, 0 <= o -> 0 <= n -> o + n <= 510 -> o + n <= zlen data -> field n (rec_data r) o = field n data o.
Proof.
  intros Hb Hl H. destruct (fixup_spec data p Hb Hl) as (data' & out & E & Hlen & Hc). rewrite H in E. injection E as -> <-. cbn [rec_position rec_data].
  split; auto. split; auto. intros n o Ho Hn Hno Hle. unfold field. f_equal. apply slice_ext; try lia.
  destruct Hc as [(_ & _ & [K|[K|K]])|(_ & Hc & _)]; try discriminate. intros k Hk.
  rewrite Hc; [reflexivity|lia|]. unfold at_block_end, block_end. intros (i & Hi & Hki). lia.
Qed.
Lemma file_bytes_error data p n e : bytes_ok data -> 32 <= zlen data <= U16_MAX -> 0 < p -> p + zlen data <= TWO64 -> file_of_bytes data (Some p) n = Err e ->
  file_message data p e \/ record_misleading data p e.
Proof.
  intros Hb Hl Hp Hp2. unfold file_of_bytes, file_validate_signature, rec_signature. cbn [rec_data rec_position]. unfold idx_range.
  rewrite get_range_in by lia. cbn [rbind]. destruct (list_eqb _ _) eqn:E0; cbn [rbind].
  2: { intros [= <-]. left. repeat split; auto. intros K. rewrite K in E0. discriminate. }
  destruct (fixup _) as [r' [[]|x| |]] eqn:Ef; try discriminate.
  - destruct (fixup_fields _ _ _ Hb ltac:(lia) Ef) as (E1 & E2 & E3).
    unfold file_validate_sizes, f_allocated_size, f_data_size, f_data, rd_u32, f_position. cbn [f_rec]. rewrite !rd_in by lia. cbn [rbind]. rewrite !E3, E2, E1 by lia.
    destruct (zlen data <? _) eqn:K1; cbn [rbind]; [intros [= <-]; left; msg|]. destruct (field 4 data 28 <? _) eqn:K2; cbn [rbind]; [intros [= <-]; left; msg|discriminate].
  - intros [= ->]. destruct (fixup_error _ _ _ _ Hb ltac:(lia) Hp Hp2 Ef) as [K|K]; [left|right; exact K]. destruct e; try contradiction K; exact K.
Qed.
Lemma file_error nt p n d e : faultless d -> bytes_ok (d_img d) -> 0 < p -> 32 <= file_record_size nt <= U16_MAX -> p + file_record_size nt <= zlen (d_img d) -> zlen (d_img d) <= TWO64 ->
  snd (file_new nt p n d) = Err e ->
  file_message (slice (d_img d) p (p + file_record_size nt)) p e \/ record_misleading (slice (d_img d) p (p + file_record_size nt)) p e.
Proof.
  intros Hf Hb Hp Hs Hle Hi. destruct (file_new_spec nt p n d Hf ltac:(lia) ltac:(lia)) as (d' & _ & _ & E & _). rewrite (E Hle). cbn [snd].
  apply file_bytes_error; [now apply bytes_ok_slice|rewrite slice_len; lia|lia|rewrite slice_len; lia].
Qed.
Lemma index_record_error data p e : bytes_ok data -> 40 <= zlen data <= U16_MAX -> 0 < p -> p + zlen data <= TWO64 -> irec_of_bytes data (Some p) = Err e ->
  (index_record_message data p e /\ exchanged e = e) \/ (index_record_message data p (exchanged e) /\ exchanged e <> e) \/ record_misleading data p e.
Proof.
  intros Hb Hl Hp Hp2. unfold irec_of_bytes, irec_validate_signature, rec_signature. cbn [rec_data rec_position]. unfold idx_range.
  rewrite get_range_in by lia. cbn [rbind]. destruct (list_eqb _ _) eqn:E0; cbn [rbind].
  2: { intros [= <-]. left. repeat split; auto. intros K. rewrite K in E0. discriminate. }
  destruct (fixup _) as [r' [[]|x| |]] eqn:Ef; try discriminate.
  - destruct (fixup_fields _ _ _ Hb ltac:(lia) Ef) as (E1 & E2 & E3).
    unfold irec_validate_sizes, irec_allocated_size, irec_data_size, rd_u32. rewrite !rd_in by lia. cbn [rbind]. rewrite !E3, E2, E1 by lia.
    destruct (U32_MAX <? _) eqn:K3; [discriminate|]. destruct (zlen data <? _) eqn:K1; cbn [rbind].
    { inj. right. left. split; [msg|]. unfold exchanged. intros K. assert (24 + field 4 data 32 = zlen data) by congruence. lia. }
    destruct (U32_MAX <? 24 + field 4 data 28) eqn:K4; [discriminate|]. destruct (24 + field 4 data 32 <? _) eqn:K2; cbn [rbind]; [|discriminate].
    inj. right. left. split; [msg|]. unfold exchanged. intros K. assert (24 + field 4 data 32 = 24 + field 4 data 28) by congruence. lia.
  - intros [= ->]. destruct (fixup_error _ _ _ _ Hb ltac:(lia) Hp Hp2 Ef) as [K|K]; [left|right; right; exact K]. destruct e; try contradiction K; split; try exact K; reflexivity.
Qed.

(** ** Attributes *)
Section Attributes.
  Context (f : file) (p : Z) (Hfp : f_position f = Some p) (Hp : 0 < p).
  Notation data := (f_data f).
  Context (Hp2 : p + zlen data + 65536 <= TWO64) (Hb : bytes_ok data).
  Ltac amsg := cbv beta iota delta [attr_message attr_misleading]; unfold attr_len_at in *; repeat apply conj; solve [reflexivity | assumption | lia].
  Lemma attr_pos off x : 0 <= off < zlen data + 65536 -> attr_position (mkAttr f off x) = Some (p + off).
  Proof. intros. unfold attr_position. cbn [at_file at_offset]. rewrite Hfp. apply pos_add_sane with (len := zlen data + 65536); lia. Qed.
  Lemma raw_next_error off s' e : 0 <= off -> raw_next f off = (s', Some (Err e)) ->
    s' = off /\ off + 4 <= zlen data /\ ~ end_marker data off /\ ~ attr_fits data off /\ (attr_message data p off e \/ attr_misleading data p off e).
  Proof.
    intros Ho H. destruct (raw_next_spec f off Ho) as (S1 & S2 & S3 & S4).
    destruct (Z_lt_le_dec (zlen data) (off + 4)) as [L|L]; [rewrite (S1 L) in H; discriminate|].
    destruct (Z.eq_dec (field 4 data off) 4294967295) as [M|M]; [rewrite (S2 L M) in H; discriminate|].
    assert (D : attr_fits data off \/ ~ attr_fits data off) by (unfold attr_fits; lia). destruct D as [D|D]; [rewrite (S4 M D) in H; discriminate|].
    destruct (S3 L M D) as (x & E). rewrite E in H. assert (s' = off /\ x = e) as (-> & ->) by (split; congruence). repeat (split; [assumption || reflexivity|]).
    revert E. unfold raw_next. rewrite get_range_in by lia. change (le_val (slice data off (off + 4))) with (field 4 data off).
    replace (field 4 data off =? TY_End) with false by (unfold TY_End; lia).
    unfold attr_new, attr_validate_length, attr_length, ATTRIBUTE_HEADER_SIZE. cbn [at_file at_offset].
    destruct (Z.max 0 _ <? 16) eqn:E1; cbn [rbind].
    { rewrite attr_pos by lia. intros K. assert (e = EInvalidAttributeLength (Some (p + off)) 16 (Z.max 0 (zlen data - off))) as -> by congruence.
      right. amsg. }
    rewrite attr_rd_in by lia. cbn [rbind]. rewrite !attr_pos by lia. destruct (_ <? 16) eqn:E2 at 1; cbn [rbind].
    { intros K. assert (e = EInvalidAttributeLength (Some (p + off)) 16 (field 4 data (off + 4))) as -> by congruence. right. amsg. }
    destruct (Z.max 0 _ <? field 4 data (off + 4)) eqn:E3; cbn [rbind]; [|rewrite attr_rd_in by lia; congruence].
    intros K. assert (e = EInvalidAttributeLength (Some (p + off)) (field 4 data (off + 4)) (Z.max 0 (zlen data - off))) as -> by congruence. left. amsg.
  Qed.
  Lemma raw_errors n : forall off e, 0 <= off -> In (Some (Err e)) (iterate (raw_next f) n off) ->
    exists l, attr_walk data off l false /\ (attr_message data p (walk_end data off l) e \/ attr_misleading data p (walk_end data off l) e).
  Proof.
    induction n; intros off e Ho; cbn [iterate]; [intros []|]. destruct (raw_next f off) as [s' x] eqn:E. intros [->|H].
    - destruct (raw_next_error _ _ _ Ho E) as (_ & K1 & K2 & K3 & K4). exists []. split; [now apply walk_bad|exact K4].
    - destruct (raw_next_spec f off Ho) as (S1 & S2 & S3 & S4).
      destruct (Z_lt_le_dec (zlen data) (off + 4)) as [L|L]; [rewrite (S1 L) in E; injection E as <- <-; apply IHn; auto|].
      destruct (Z.eq_dec (field 4 data off) 4294967295) as [M|M]; [rewrite (S2 L M) in E; injection E as <- <-; apply IHn; auto|].
      assert (D : attr_fits data off \/ ~ attr_fits data off) by (unfold attr_fits; lia). destruct D as [D|D].
      + rewrite (S4 M D) in E. injection E as <- <-. destruct (IHn (off + attr_len_at data off) e) as (l & W & K); [destruct D; lia|exact H|].
        exists (off :: l). split; [now apply walk_attr|exact K].
      + destruct (S3 L M D) as (y & E'). rewrite E' in E. injection E as <- <-. apply IHn; auto.
  Qed.
  Context (off : Z) (en : option alist) (Ho : 0 <= off) (Hfit : attr_fits data off).
  Notation a := (mkAttr f off en).
  Lemma attr_ty_error e : attr_ty a = Err e -> attr_message data p off e.
  Proof.
    destruct Hfit as (F1 & F2 & F3). unfold attr_ty. rewrite attr_rd_in by lia. cbn [rbind]. rewrite Z.add_0_r. destruct (known_type _) eqn:E; [discriminate|].
    rewrite attr_pos by lia. inj. split; [reflexivity|]. split; [reflexivity|]. intros K. apply known_type_spec in K. unfold attr_type_at in *. congruence.
  Qed.
  Lemma attr_ensure_ty_error ty e : attr_ensure_ty a ty = Err e -> attr_message data p off e.
  Proof.
    unfold attr_ensure_ty. pose proof Hfit as (F1 & F2 & F3). destruct (attr_ty a) as [t|x| |] eqn:E; cbn [rbind]; try discriminate.
    - destruct (t =? ty) eqn:Et; [discriminate|]. rewrite attr_pos by lia. inj. revert E. unfold attr_ty. rewrite attr_rd_in by lia. cbn [rbind]. rewrite Z.add_0_r.
      destruct (known_type _) eqn:Ek; [|discriminate]. intros K. assert (t = field 4 data off) as -> by congruence. split; [reflexivity|]. split; [reflexivity|]. lia.
    - inj. now apply attr_ty_error.
  Qed.
  Lemma attr_name_error e : attr_name a = Err e -> attr_message data p off e.
  Proof.
    destruct Hfit as (F1 & F2 & F3). unfold attr_name, attr_validate_name, attr_name_offset, attr_name_length, attr_length. rewrite !attr_rd_in by lia. cbn [rbind].
    pose proof (field2_bound data (off + 10) Hb). pose proof (field1_bound data (off + 9) Hb). unfold attr_len_at in *. rewrite !attr_pos by lia.
    destruct (_ || _); [discriminate|]. destruct (field 4 data (off + 4) <=? _) eqn:E1; cbn [rbind]; [inj; amsg|].
    destruct (field 4 data (off + 4) <? _) eqn:E2; cbn [rbind]; [inj; amsg|]. unfold idx_range; cbn [at_file at_offset]; rewrite get_range_in by lia; discriminate.
  Qed.
  Lemma attr_resident_value_error e : off + 22 <= zlen data -> attr_resident_at data off -> attr_resident_value a = Err e -> attr_message data p off e.
  Proof.
    intros F4 Hr. destruct Hfit as (F1 & F2 & F3). unfold attr_resident_value, attr_validate_resident, attr_resident_value_offset, attr_resident_value_length, attr_length.
    rewrite !attr_rd_in by lia. cbn [rbind]. unfold attr_len_at in *. rewrite !attr_pos by lia.
    pose proof (field2_bound data (off + 20) Hb). pose proof (field4_bound data (off + 16) Hb). pose proof (field4_bound data (off + 4) Hb).
    destruct (field 4 data (off + 4) <? _) eqn:E1; cbn [rbind]; [inj; amsg|]. destruct (U32_MAX <? _) eqn:E2; cbn [rbind]; [inj; unfold U32_MAX in *; amsg|].
    destruct (field 4 data (off + 4) <? _) eqn:E3 at 1; cbn [rbind]; [inj; amsg|]. unfold idx_range; cbn [at_file at_offset]; rewrite get_range_in by lia; discriminate.
  Qed.
  Lemma attr_structured_error ty e : off + 22 <= zlen data -> attr_resident_structured a ty = Err e -> attr_message data p off e.
  Proof.
    intros F4. unfold attr_resident_structured. destruct (attr_ensure_ty a ty) as [u|x| |] eqn:E; cbn [rbind]; try discriminate; [|inj; now apply attr_ensure_ty_error with ty].
    pose proof Hfit as (F1 & F2 & F3). unfold attr_is_resident. rewrite attr_rd_in by lia. cbn [rbind]. destruct (_ =? 0) eqn:E0.
    - apply attr_resident_value_error; [lia|]. unfold attr_resident_at. lia.
    - rewrite attr_pos by lia. inj. split; [reflexivity|]. unfold attr_resident_at. lia.
  Qed.
  Lemma attr_runs_error e : off + 34 <= zlen data -> ~ attr_resident_at data off -> attr_nr_data_and_position a = Err e -> attr_misleading data p off e.
  Proof.
    intros F4 Hr. destruct Hfit as (F1 & F2 & F3). unfold attr_nr_data_and_position, attr_nr_runs_offset, attr_length. rewrite !attr_rd_in by lia. cbn [rbind at_file at_offset].
    pose proof (field2_bound data (off + 32) Hb). unfold attr_len_at in *. destruct (get_range _ _ _) eqn:E; [discriminate|]. apply get_range_none in E.
    rewrite Hfp, pos_add_sane with (len := zlen data + 65536) by (unfold U16_MAX in *; lia). inj. amsg.
  Qed.
End Attributes.

(** ** Index roots and entries *)
Lemma root_error s p e : bytes_ok s -> ir_new s (Some p) = Err e -> root_message s p e \/ root_misleading s p e.
Proof.
  intros Hb. unfold ir_new. destruct (zlen s <? 32) eqn:E1; [inj; right; split; [reflexivity|lia]|].
  unfold ir_range, ir_entries_offset, ir_data_size, rd_u32. cbn [ir_slice ir_position]. rewrite !rd_in by lia. cbn [rbind].
  destruct (zlen s <=? _) eqn:E2; [inj; left; cbn [root_message]; repeat apply conj; reflexivity || lia|].
  destruct (zlen s <? 16 + field 4 s 20) eqn:E3; [inj; left; cbn [root_message]; repeat apply conj; reflexivity || lia|discriminate].
Qed.
Lemma entry_error s p e : bytes_ok s -> zlen s <= U16_MAX -> ie_new s (Some p) = Err e -> entry_message s p e \/ entry_misleading s p e.
Proof.
  intros Hb Hl. unfold ie_new. destruct (zlen s <? 16) eqn:E1; [inj; right; split; [reflexivity|lia]|].
  unfold ie_length, rd_u16. cbn [ie_slice]. rewrite rd_in by lia. cbn [rbind]. rewrite Z.mod_small by (unfold U16_MAX in *; lia).
  destruct (zlen s <? field 2 s 8) eqn:E2; [inj; left; cbn [entry_message]; repeat apply conj; reflexivity || lia|].
  pose proof (field2_bound s 8 Hb). unfold idx_range; cbn [at_file at_offset]; rewrite get_range_in by lia; discriminate.
Qed.
Section Entry.
  Context (s : list Z) (p : Z) (Hb : bytes_ok s) (Hl : 16 <= zlen s <= U16_MAX).
  Notation en := (mkIE s (Some p)).
  Lemma entry_data_error {D} (dp : list Z -> position -> res D) e : ie_data dp en = Some (Err e) ->
    entry_data_message s p e \/ dp (slice s (field 2 s 0) (field 2 s 0 + field 2 s 2)) (pos_add (Some p) (field 2 s 0)) = Err e.
  Proof.
    unfold ie_data, ie_data_offset, ie_data_length, rd_u16. cbn [ie_slice ie_position]. rewrite !rd_in by lia. rewrite Z.mod_small by (unfold U16_MAX in *; lia).
    pose proof (field2_bound s 0 Hb). pose proof (field2_bound s 2 Hb). destruct (_ || _); [discriminate|]. destruct (get_range _ _ _) eqn:E.
    - apply get_range_some in E as (_ & _ & ->). intros K. right. congruence.
    - apply get_range_none in E. intros K. left. assert (e = EInvalidIndexEntryDataRange (Some p) (field 2 s 0) (field 2 s 0 + field 2 s 2) (zlen s)) as -> by congruence.
      cbn [entry_data_message]. split; [reflexivity|]. split; [reflexivity|]. split; [lia|]. left. auto.
  Qed.
  Lemma entry_key_error {D} (kp : list Z -> position -> res D) e : ie_key kp en = Some (Err e) ->
    entry_data_message s p e \/ kp (slice s 16 (16 + field 2 s 10)) (pos_add (Some p) 16) = Err e.
  Proof.
    unfold ie_key, ie_key_length, ie_is_last, ie_flags, rd_u16, rd_u8. cbn [ie_slice ie_position]. rewrite !rd_in by lia. cbn [rbind]. rewrite Z.mod_small by (unfold U16_MAX in *; lia).
    pose proof (field2_bound s 10 Hb). destruct (_ =? 0); [discriminate|]. destruct (Z.testbit _ _); [discriminate|]. destruct (get_range _ _ _) eqn:E.
    - apply get_range_some in E as (_ & _ & ->). intros K. right. congruence.
    - apply get_range_none in E. intros K. left. assert (e = EInvalidIndexEntryDataRange (Some p) 16 (16 + field 2 s 10) (zlen s)) as -> by congruence.
      cbn [entry_data_message]. split; [reflexivity|]. split; [reflexivity|]. split; [lia|]. right. left. auto.
  Qed.
  Lemma entry_subnode_error e : ie_subnode_vcn en = Some (Err e) -> entry_data_message s p e.
  Proof.
    unfold ie_subnode_vcn, ie_has_subnode, ie_flags, ie_length, rd_u16, rd_u8. cbn [ie_slice ie_position]. rewrite !rd_in by lia. cbn [rbind]. rewrite Z.mod_small by (unfold U16_MAX in *; lia).
    destruct (Z.testbit _ _); [|discriminate]. destruct (_ <? 8); [discriminate|]. destruct (get_range _ _ _) eqn:E; [discriminate|]. apply get_range_none in E. intros K.
    assert (e = EInvalidIndexEntryDataRange (Some p) (Z.max (field 2 s 8 - 8) 16) (Z.max (field 2 s 8 - 8) 16 + 8) (zlen s)) as -> by congruence.
    cbn [entry_data_message]. split; [reflexivity|]. split; [reflexivity|]. split; [lia|]. right. right. auto.
  Qed.
End Entry.

(** ** Data runs *)
Lemma zdrop_cons_byte data o h rest : 0 <= o -> zdrop o data = h :: rest ->
  byte_at data o = Some h /\ zlen rest = zlen data - o - 1 /\ (forall k, 0 <= k -> ztake k rest = slice data (o + 1) (o + 1 + k)) /\
  forall j k, 0 <= j -> 0 <= k -> ztake k (zdrop j rest) = slice data (o + 1 + j) (o + 1 + j + k).
Proof.
  intros Ho E. assert (Hr : rest = zdrop (o + 1) data).
  { pose proof (zdrop_zdrop 1 o data ltac:(lia) Ho) as K. rewrite E in K. rewrite zdrop_skipn in K. change (skipn (Z.to_nat 1) (h :: rest)) with rest in K. rewrite K. f_equal. lia. }
  assert (L : zlen rest = zlen data - o - 1). { pose proof (zlen_zdrop o data) as K. rewrite E, zlen_cons in K. pose proof (zlen_nonneg rest). lia. }
  split. { rewrite zdrop_skipn in E. unfold byte_at. rewrite <- (firstn_skipn (Z.to_nat o) data) at 1. rewrite E.
    rewrite nth_error_app2; rewrite firstn_length_le; try reflexivity. now rewrite Nat.sub_diag.
    all: pose proof (zlen_nonneg rest); unfold zlen in *; lia. }
  split; [exact L|]. split.
  - intros k Hk. unfold slice. rewrite Hr. f_equal. lia.
  - intros j k Hj Hk. unfold slice. rewrite Hr, zdrop_zdrop by lia. f_equal; [lia|]. f_equal. lia.
Qed.
Lemma signed_of_bytes bs : bytes_ok bs -> 1 <= zlen bs <= 8 -> signed_bytes bs (sign_extend (le_val bs) (zlen bs)).
Proof.
  intros Hb Hl. pose proof (le_val_nonneg bs Hb) as H0. pose proof (le_val_bound bs Hb) as H1. set (v := if le_val bs <? 256 ^ zlen bs / 2 then le_val bs else le_val bs - 256 ^ zlen bs).
  assert (Hc : 256 ^ zlen bs = 2 * (256 ^ zlen bs / 2) /\ 0 < 256 ^ zlen bs).
  { assert (Hk : zlen bs = 1 \/ zlen bs = 2 \/ zlen bs = 3 \/ zlen bs = 4 \/ zlen bs = 5 \/ zlen bs = 6 \/ zlen bs = 7 \/ zlen bs = 8) by lia.
    destruct Hk as [-> | [-> | [-> | [-> | [-> | [-> | [-> | ->]]]]]]]; split; reflexivity. }
  destruct Hc as (Hc & Hc0). assert (Hv : - (256 ^ zlen bs / 2) <= v < 256 ^ zlen bs / 2) by (unfold v; destruct (_ <? _) eqn:E; lia).
  assert (Hm : v mod 256 ^ zlen bs = le_val bs).
  { unfold v. destruct (_ <? _) eqn:E; [apply Z.mod_small; lia|]. replace (le_val bs - 256 ^ zlen bs) with (le_val bs + (-1) * 256 ^ zlen bs) by lia.
    rewrite Z_mod_plus_full. apply Z.mod_small. lia. }
  rewrite <- Hm at 1. rewrite sign_extend_ok by (try lia; exact Hv). repeat (split; [assumption || lia|]). symmetry. exact Hm.
Qed.
Section Runs.
  Context (cs : Z) (data : list Z) (p : Z) (Hcs : 1 <= cs) (Hb : bytes_ok data) (Hp : 0 < p) (Hp2 : p + zlen data <= TWO64).
  Lemma run_error s s' e : 0 <= dr_off s -> 0 <= dr_prev s <= U64_MAX -> druns_next cs data (Some p) s = (s', Some (Err e)) ->
    run_message cs data p (dr_off s) (dr_prev s) e.
  Proof.
    intros Ho Hprev. unfold druns_next. destruct (zdrop (dr_off s) data) as [|h rest] eqn:Eh; [discriminate|].
    destruct (zdrop_cons_byte _ _ _ _ Ho Eh) as (Hh & Hlen & T1 & T2). pose proof (zlen_nonneg rest).
    assert (Hhb : 0 <= h <= 255). { assert (Hbz : bytes_ok (zdrop (dr_off s) data)) by now apply bytes_ok_zdrop. rewrite Eh in Hbz. exact (Forall_inv Hbz). }
    destruct (nibbles h Hhb) as (-> & ->). assert (Hn1 : 0 <= h mod 16 <= 15) by lia. assert (Hn2 : 0 <= h / 16 <= 15) by lia.
    destruct (h =? 0) eqn:E0; [discriminate|]. unfold druns_position. rewrite pos_add_sane with (len := zlen data) by lia.
    unfold read_variable_length at 1. set (q := Some (p + dr_off s)).
    destruct (8 <? h mod 16) eqn:E1.
    { intros K. assert (e = EInvalidByteCountInDataRunHeader q (h mod 16) 8) as -> by congruence. exists h. split; [exact Hh|]. repeat apply conj; auto; lia. }
    destruct (zlen rest <? h mod 16) eqn:E2.
    { intros K. assert (e = EIo UnexpectedEof) as -> by congruence. exists h. split; [exact Hh|]. split; [reflexivity|]. lia. }
    rewrite T1 by lia. set (count := le_val (slice data (dr_off s + 1) (dr_off s + 1 + h mod 16))).
    destruct (count =? 0) eqn:E3.
    { intros K. assert (e = EInvalidClusterCountInDataRunHeader q count) as -> by congruence. exists h. split; [exact Hh|]. repeat apply conj; auto; lia. }
    destruct (checked_mul64 count cs) as [alloc|] eqn:E4.
    2: { intros K. assert (e = EInvalidClusterCountInDataRunHeader q count) as -> by congruence. exists h. split; [exact Hh|]. split; [reflexivity|]. split; [reflexivity|]. right.
         unfold checked_mul64 in E4. destruct (_ <=? _) eqn:E5; [discriminate|lia]. }
    unfold read_variable_length.
    destruct (8 <? h / 16) eqn:E5.
    { intros K. assert (e = EInvalidByteCountInDataRunHeader q (h / 16) 8) as -> by congruence. exists h. split; [exact Hh|]. repeat apply conj; auto; lia. }
    destruct (zlen (zdrop (h mod 16) rest) <? h / 16) eqn:E6.
    { rewrite zlen_zdrop in E6. intros K. assert (e = EIo UnexpectedEof) as -> by congruence. exists h. split; [exact Hh|]. split; [reflexivity|]. lia. }
    rewrite zlen_zdrop in E6. rewrite T2 by lia. set (bs := slice data (dr_off s + 1 + h mod 16) (dr_off s + 1 + h mod 16 + h / 16)).
    assert (Hbs : bytes_ok bs) by now apply bytes_ok_slice. assert (Lbs : zlen bs = h / 16) by (unfold bs; rewrite slice_len; lia).
    destruct (_ =? 0) eqn:E7 at 1; [discriminate|].
    assert (Hs : signed_bytes bs (sign_extend (le_val bs) (h / 16))).
    { rewrite <- Lbs. apply signed_of_bytes; auto. destruct (Z.eq_dec (h / 16) 0) as [Z0|]; [|lia]. exfalso. rewrite Z0 in *.
      assert (bs = []) as Hnil by (destruct bs; auto; rewrite zlen_cons in Lbs; pose proof (zlen_nonneg bs); lia). rewrite Hnil in E7. discriminate E7. }
    set (vcn := sign_extend (le_val bs) (h / 16)) in *.
    assert (Hv : I64_MIN <= vcn <= I64_MAX).
    { destruct Hs as (_ & L & Hv & _). assert (256 ^ zlen bs <= 256 ^ 8) by (apply Z.pow_le_mono_r; lia). change (256 ^ 8) with 18446744073709551616 in *. unfold I64_MIN, I64_MAX. lia. }
    rewrite lcn_checked_add_spec by assumption. destruct (_ && _) eqn:E8.
    2: { intros K. assert (e = EInvalidVcnInDataRunHeader q vcn (dr_prev s)) as -> by congruence. exists h. split; [exact Hh|]. split; [reflexivity|]; split; [exact Hs|]; split; [reflexivity|]; lia. }
    destruct (lcn_position_spec cs (dr_prev s + vcn)) as (P1 & P2); [lia|lia|].
    destruct (Z_le_gt_dec ((dr_prev s + vcn) * cs) U64_MAX) as [L|L]; [rewrite (P1 L); discriminate|]. rewrite P2 by lia.
    intros K. assert (e = ELcnTooBig (dr_prev s + vcn)) as -> by congruence. exists h. split; [exact Hh|]. exists vcn. split; [exact Hs|]. split; [reflexivity|lia].
  Qed.
  Lemma run_step s s' r : 0 <= dr_off s -> 0 <= dr_prev s <= U64_MAX -> druns_next cs data (Some p) s = (s', Some (Ok r)) ->
    runs_before data (dr_off s) (dr_prev s) -> runs_before data (dr_off s') (dr_prev s') /\ 0 <= dr_off s' /\ 0 <= dr_prev s' <= U64_MAX.
  Proof.
    intros Ho Hprev Hnext Hbef. destruct (druns_next_spec _ _ _ _ _ _ Hcs Hb Ho Hprev Hnext) as (_ & Hprev').
    destruct (druns_next_progress _ _ _ _ _ _ Hnext Ho) as (Ho' & _). split; [|auto]. clear Hprev' Ho'. revert Hnext.
    unfold druns_next. destruct (zdrop (dr_off s) data) as [|h rest] eqn:Eh; [discriminate|].
    destruct (zdrop_cons_byte _ _ _ _ Ho Eh) as (Hh & Hlen & T1 & T2). pose proof (zlen_nonneg rest).
    assert (Hhb : 0 <= h <= 255). { assert (Hbz : bytes_ok (zdrop (dr_off s) data)) by now apply bytes_ok_zdrop. rewrite Eh in Hbz. exact (Forall_inv Hbz). }
    destruct (nibbles h Hhb) as (-> & ->). assert (Hn1 : 0 <= h mod 16 <= 15) by lia. assert (Hn2 : 0 <= h / 16 <= 15) by lia.
    destruct (h =? 0) eqn:E0; [discriminate|]. unfold read_variable_length at 1.
    destruct (8 <? h mod 16) eqn:E1; [discriminate|]. destruct (zlen rest <? h mod 16) eqn:E2; [discriminate|].
    rewrite T1 by lia. set (count := le_val (slice data (dr_off s + 1) (dr_off s + 1 + h mod 16))).
    destruct (count =? 0) eqn:E3; [discriminate|]. destruct (checked_mul64 count cs) as [alloc|] eqn:E4; [|discriminate].
    unfold read_variable_length. destruct (8 <? h / 16) eqn:E5; [discriminate|]. destruct (zlen (zdrop (h mod 16) rest) <? h / 16) eqn:E6; [discriminate|].
    rewrite zlen_zdrop in E6. rewrite T2 by lia. set (bs := slice data (dr_off s + 1 + h mod 16) (dr_off s + 1 + h mod 16 + h / 16)).
    assert (Hbs : bytes_ok bs) by now apply bytes_ok_slice. assert (Lbs : zlen bs = h / 16) by (unfold bs; rewrite slice_len; lia).
    assert (Hcount : unsigned_bytes (slice data (dr_off s + 1) (dr_off s + 1 + h mod 16)) count).
    { split; [now apply bytes_ok_slice|]. split; [|reflexivity]. rewrite slice_len by lia. destruct (Z.eq_dec (h mod 16) 0) as [Z0|]; [|lia]. exfalso.
      unfold count in E3. rewrite Z0, Z.add_0_r in E3. unfold slice in E3. rewrite Z.sub_diag, ztake_0 in E3 by lia. discriminate E3. }
    assert (Hadv : zlen data - zlen (zdrop (h / 16) (zdrop (h mod 16) rest)) = dr_off s + 1 + h mod 16 + h / 16) by (rewrite !zlen_zdrop; lia). rewrite Hadv.
    set (vcn := sign_extend (le_val bs) (h / 16)).
    assert (Hs : (h / 16 = 0 /\ vcn = 0) \/ signed_bytes bs vcn).
    { destruct (Z.eq_dec (h / 16) 0) as [Z0|]; [left|right; unfold vcn; rewrite <- Lbs; apply signed_of_bytes; auto; lia]. split; [exact Z0|].
      assert (bs = []) as Hnil by (destruct bs; auto; rewrite zlen_cons in Lbs; pose proof (zlen_nonneg bs); lia). unfold vcn. rewrite Hnil, Z0. reflexivity. }
    assert (Hrb : runs_before data (dr_off s + 1 + h mod 16 + h / 16) (dr_prev s + vcn)).
    { eapply rb_run; [exact Hbef|exact Hh|lia|exact Hcount|exact Hs|lia]. }
    destruct (vcn =? 0) eqn:E7.
    - intros K. assert (s' = mkDruns (dr_off s + 1 + h mod 16 + h / 16) (dr_prev s)) as -> by congruence. cbn [dr_off dr_prev].
      replace (dr_prev s) with (dr_prev s + vcn) by lia. exact Hrb.
    - destruct Hs as [(_ & Hs)|Hs]; [lia|]. assert (Hv : I64_MIN <= vcn <= I64_MAX).
      { destruct Hs as (_ & L & Hv & _). assert (256 ^ zlen bs <= 256 ^ 8) by (apply Z.pow_le_mono_r; lia). change (256 ^ 8) with 18446744073709551616 in *. unfold I64_MIN, I64_MAX. lia. }
      rewrite lcn_checked_add_spec by assumption. destruct (_ && _); [|discriminate]. destruct (lcn_position _ _); try discriminate.
      intros K. assert (s' = mkDruns (dr_off s + 1 + h mod 16 + h / 16) (dr_prev s + vcn)) as -> by congruence. exact Hrb.
  Qed.
  Lemma runs_error runs e rest : forall n s, 0 <= dr_off s -> 0 <= dr_prev s <= U64_MAX -> runs_before data (dr_off s) (dr_prev s) ->
    iterate (druns_next cs data (Some p)) n s = map (fun r => Some (Ok r)) runs ++ Some (Err e) :: rest ->
    exists o lcn, runs_before data o lcn /\ run_message cs data p o lcn e.
  Proof.
    induction runs as [|r runs IH]; intros [|n] s Ho Hprev Hbef; cbn [iterate map app]; try discriminate; destruct (druns_next cs data (Some p) s) as [s' x] eqn:E; intros K.
    - assert (x = Some (Err e)) as -> by congruence. exists (dr_off s), (dr_prev s). split; [exact Hbef|]. now apply run_error with s'.
    - assert (x = Some (Ok r)) as -> by congruence. destruct (run_step s s' r Ho Hprev E Hbef) as (H1 & H2 & H3). apply (IH n s'); auto. congruence.
  Qed.
End Runs.

(** ** Structured values *)
Section Values.
  Context {S : Type} (rx : Z -> RM S (list Z)) (At : Z -> S -> dev -> Prop) (bs : list Z) (Hb : bytes_ok bs).
  Context (Hrx : reads_front rx At bs).
  Ltac step q n Ha := let s := fresh "s" in let d := fresh "d" in let E := fresh "E" in let A := fresh "A" in
    destruct (rx_ok rx At bs Hrx q n _ _ Ha ltac:(lia) ltac:(lia) ltac:(lia)) as (s & d & E & A); unfold rm_bind at 1; rewrite E; cbn beta iota.
  Ltac step' q n Ha := let s := fresh "s" in let d := fresh "d" in let E := fresh "E" in let A := fresh "A" in
    destruct (rx_ok rx At bs Hrx q n _ _ Ha ltac:(lia) ltac:(lia) ltac:(lia)) as (s & d & E & A); unfold rm_bind at 1; unfold rm_bind at 1; rewrite E; cbn beta iota; unfold rm_ret at 1.
  Lemma si_error p s d e : At 0 s d -> snd (snd (si_new rx p (zlen bs) s d)) = Err e -> value_message 16 bs p (zlen bs) e.
  Proof.
    intros Ha. unfold si_new. destruct (zlen bs <? 48) eqn:El; [cbn [rm_err snd]; inj; repeat apply conj; auto; lia|]. step 0 36 Ha.
    destruct (72 <=? zlen bs) eqn:E72; [|discriminate]. change (0 + 36) with 36 in A. step 36 36 A. discriminate.
  Qed.
  Lemma vi_error p s d e : At 0 s d -> snd (snd (vi_new rx p (zlen bs) s d)) = Err e -> e = EInvalidStructuredValueSize p 16 12 (zlen bs) /\ zlen bs < 12.
  Proof. intros Ha. unfold vi_new. destruct (zlen bs <? 12) eqn:El; [cbn [rm_err snd]; inj; split; [reflexivity|lia]|]. step 0 12 Ha. discriminate. Qed.
  Lemma vn_error p s d e : At 0 s d -> snd (snd (vn_new rx p (zlen bs) s d)) = Err e -> value_message 96 bs p (zlen bs) e.
  Proof.
    intros Ha. pose proof (zlen_nonneg bs). unfold vn_new. destruct (256 <? zlen bs) eqn:El; [cbn [rm_err snd]; inj; repeat apply conj; auto; lia|].
    destruct (rx_ok rx At bs Hrx 0 (zlen bs) s d Ha) as (s' & d' & E & A); try lia. rewrite E. discriminate.
  Qed.
  Lemma oi_error p s d e : At 0 s d -> snd (snd (oi_new rx p (zlen bs) s d)) = Err e -> value_message 64 bs p (zlen bs) e.
  Proof.
    intros Ha. unfold oi_new. destruct (zlen bs <? 16) eqn:El; [cbn [rm_err snd]; inj; repeat apply conj; auto; lia|].
    step 0 16 Ha. change (0 + 16) with 16 in A. destruct (32 <=? zlen bs) eqn:E32.
    - step' 16 16 A. change (16 + 16) with 32 in A0. destruct (48 <=? zlen bs) eqn:E48.
      + step' 32 16 A0. change (32 + 16) with 48 in A1. destruct (64 <=? zlen bs) eqn:E64; [step' 48 16 A1|]; discriminate.
      + replace (64 <=? zlen bs) with false by lia. discriminate.
    - replace (48 <=? zlen bs) with false by lia. replace (64 <=? zlen bs) with false by lia. discriminate.
  Qed.
  Lemma fn_error p s d e : At 0 s d -> snd (snd (fn_new rx p (zlen bs) s d)) = Err e ->
    value_message 48 bs p (zlen bs) e \/ (value_message 48 bs p (zlen bs) (exchanged e) /\ exchanged e <> e).
  Proof.
    intros Ha. unfold fn_new. destruct (zlen bs <? 68) eqn:El; [cbn [rm_err snd]; inj; left; repeat apply conj; auto; lia|].
    step 0 66 Ha. rewrite ?field_slice by lia. rewrite ?Z.add_0_l. pose proof (field1_bound bs 64 Hb). pose proof (field1_bound bs 65 Hb).
    destruct (zlen bs <? 66 + field 1 bs 64 * 2) eqn:En; [cbn [rm_err snd]; inj; right; split|].
    - cbn [exchanged value_message]. repeat apply conj; auto. right. right. right. right. split; [reflexivity|]. split; [right|]; lia.
    - unfold exchanged. intros K. assert (66 + field 1 bs 64 * 2 = zlen bs) by congruence. lia.
    - destruct (3 <? field 1 bs 65) eqn:E3; [cbn [rm_err snd]; inj; left; repeat apply conj; auto; lia|].
      change (0 + 66) with 66 in A. step 66 (field 1 bs 64 * 2) A. discriminate.
  Qed.
End Values.
Lemma from_slice_error {A} (new : (Z -> RM resv (list Z)) -> position -> Z -> RM resv A) (Q : err -> Prop) bs p e : zlen bs <= U64_MAX ->
  (forall At, reads_front cursor_exact At bs -> forall s d, At 0 s d -> snd (snd (new cursor_exact p (zlen bs) s d)) = Err e -> Q e) ->
  from_slice new bs p = Err e -> Q e.
Proof.
  intros Hl H. unfold from_slice. apply (H _ (cursor_reads_front bs p Hl)). unfold res_new, res_stream_position. cbn [rv_data rv_position rv_sp]. unfold U64_MAX. repeat split; auto; lia.
Qed.

(** ** Looking for attributes *)
Section Find.
  Context (f : file) (p : Z) (Hfp : f_position f = Some p) (Hp : 0 < p).
  Notation data := (f_data f).
  Context (Hp2 : p + zlen data + 65536 <= TWO64) (Hb : bytes_ok data).
  Lemma attr_matches_error off ty name inst e : 0 <= off -> attr_fits data off -> attr_matches (mkAttr f off None) ty name inst = Err e -> attr_message data p off e.
  Proof.
    intros Ho Hfit. unfold attr_matches. destruct (attr_ty _) as [t|x| |] eqn:E; cbn [rbind]; try discriminate; [|inj; now apply attr_ty_error with (en := None) (f := f)].
    destruct (negb (t =? ty)); [discriminate|]. pose proof Hfit as (F1 & F2 & F3).
    assert (Hi : exists i, (match inst with Some inst => let? x := attr_instance (mkAttr f off None) in Ok (x =? inst) | None => Ok true end) = Ok i).
    { destruct inst; [unfold attr_instance; rewrite attr_rd_in by lia|]; cbn [rbind]; eauto. }
    destruct Hi as (i & ->). cbn [rbind]. destruct (negb i); [discriminate|]. destruct name as [nm|]; [|discriminate].
    destruct (attr_name _) as [bs|x| |] eqn:En; cbn [rbind]; try discriminate. inj. now apply attr_name_error with (en := None) (f := f).
  Qed.
  Lemma find_loop_error off l b ty name inst : attr_walk data off l b -> 0 <= off -> forall fuel e, (length l < fuel)%nat ->
    find_resident_loop fuel f ty name inst off = Err e ->
    (e = EAttributeNotFound (Some p) ty /\ b = true /\ Forall (is_other data ty name inst) l) \/
    exists o, (In o l \/ b = false /\ o = walk_end data off l) /\ (attr_message data p o e \/ attr_misleading data p o e).
  Proof.
    induction 1 as [off H|off H Hm|off H Hm Hf|off l b Hm Hf W IH]; intros Ho [|fuel] e Hfuel; try (exfalso; cbn [length] in Hfuel; lia); cbn [find_resident_loop];
      destruct (raw_next_spec f off Ho) as (S1 & S2 & S3 & S4).
    - rewrite (S1 H), Hfp. inj. left. auto.
    - rewrite (S2 H Hm), Hfp. inj. left. auto.
    - destruct (S3 H Hm Hf) as (x & E). rewrite E. cbn [rbind]. inj. right. exists off. split; [right; auto|].
      now destruct (raw_next_error f p Hfp Hp Hp2 off _ _ Ho E) as (_ & _ & _ & _ & K).
    - rewrite (S4 Hm Hf). cbn [rbind]. pose proof (attr_matches_spec f Hb off ty name inst Ho Hf) as Hmat.
      destruct (attr_matches _ _ _ _) as [[]|x| |] eqn:E; cbn [rbind]; try discriminate.
      + intros K. destruct (IH ltac:(destruct Hf; lia) fuel e ltac:(cbn [length] in Hfuel; lia) K) as [(H1 & H2 & H3)|(o & H1 & H2)]; [left; auto|right].
        exists o. split; [|exact H2]. destruct H1 as [H1|(H1 & H3)]; [left; now right|right; auto].
      + inj. right. exists off. split; [left; now left|]. left. now apply attr_matches_error with ty name inst.
  Qed.
  Lemma find_error ty name inst e : 42 <= zlen data -> find_resident_attribute f ty name inst = Err e ->
    exists l b, attr_walk data (field 2 data 20) l b /\
    ((e = EAttributeNotFound (Some p) ty /\ b = true /\ Forall (is_other data ty name inst) l) \/
     exists o, (In o l \/ b = false /\ o = walk_end data (field 2 data 20) l) /\ (attr_message data p o e \/ attr_misleading data p o e)).
  Proof.
    intros H42. unfold find_resident_attribute, raw_start, f_first_attribute_offset, rd_u16. rewrite rd_in by lia. cbn [rbind]. pose proof (field2_bound data 20 Hb).
    destruct (walk_total f (field 2 data 20) ltac:(lia)) as (l & b & W). intros K. exists l, b. split; [exact W|]. refine (find_loop_error _ _ _ _ _ _ W _ _ e _ K); [lia|].
    destruct (walk_length f _ _ _ W ltac:(lia)) as (_ & [->|L]); cbn [length]; unfold zlen in *; lia.
  Qed.
End Find.
