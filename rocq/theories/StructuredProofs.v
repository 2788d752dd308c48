(** * Structured values. *)
From Verif Require Import Base Dev Types DataRuns Stream NonResident Resident Attribute File Guid Structured Spec SpecValues BaseProofs DevProofs ReaderProofs ResidentProofs.
From Coq Require Import Lia.

Lemma slice_slice l a b c e : 0 <= a -> 0 <= c -> e <= b - a -> slice (slice l a b) c e = slice l (a + c) (a + e).
Proof.
  intros Ha Hc He. unfold slice. rewrite zdrop_ztake by lia. rewrite ztake_ztake, zdrop_zdrop by lia. f_equal; [lia|]. f_equal. lia.
Qed.
Lemma field_slice n l a b c : 0 <= a -> 0 <= c -> c + n <= b - a -> field n (slice l a b) c = field n l (a + c).
Proof. intros. unfold field. rewrite slice_slice by lia. f_equal. f_equal. lia. Qed.
Lemma slice_all l n : zlen l <= n -> slice l 0 n = l.
Proof. intros. unfold slice. rewrite zdrop_0 by lia. apply ztake_all. lia. Qed.

Lemma small_cases i n : 0 <= i < Z.of_nat n -> In i (map Z.of_nat (seq 0 n)).
Proof. intros H. apply in_map_iff. exists (Z.to_nat i). split; [lia|]. apply in_seq. lia. Qed.
Lemma mask_bits m n l x : 0 <= m < 2 ^ Z.of_nat n ->
  forallb (fun i => Bool.eqb (Z.testbit m i) (existsb (Z.eqb i) l)) (map Z.of_nat (seq 0 n)) = true ->
  Forall (fun i => i < Z.of_nat n) l ->
  forall i, 0 <= i -> Z.testbit (Z.land x m) i = true <-> Z.testbit x i = true /\ In i l.
Proof.
  intros Hm Hb Hl i Hi. rewrite Z.land_spec, andb_true_iff. apply and_iff_compat_l.
  destruct (Z_lt_le_dec i (Z.of_nat n)) as [Hlt|Hge].
  - rewrite forallb_forall in Hb. specialize (Hb i (small_cases i n ltac:(lia))). apply Bool.eqb_prop in Hb. rewrite Hb, existsb_exists.
    split; [intros (y & H1 & H2); apply Z.eqb_eq in H2; now subst|]. intros H. exists i. split; auto. apply Z.eqb_refl.
  - split.
    + destruct (Z.eq_dec m 0) as [->|]; [now rewrite Z.testbit_0_l|]. rewrite Z.bits_above_log2; [discriminate|lia|].
      apply Z.log2_lt_pow2; [lia|]. eapply Z.lt_le_trans; [apply Hm|]. apply Z.pow_le_mono_r; lia.
    + intros H. rewrite Forall_forall in Hl. specialize (Hl i H). lia.
Qed.
Lemma file_flags_bits x i : 0 <= i -> Z.testbit (Z.land x FILE_ATTRIBUTE_FLAGS) i = true <->
  Z.testbit x i = true /\ In i [0; 1; 2; 5; 6; 7; 8; 9; 10; 11; 12; 13; 14; 28].
Proof. apply (mask_bits FILE_ATTRIBUTE_FLAGS 29); [vm_compute; split; [discriminate|reflexivity]|vm_compute; reflexivity|repeat constructor]. Qed.
Lemma vol_flags_bits x i : 0 <= i -> Z.testbit (Z.land x 49215) i = true <-> Z.testbit x i = true /\ In i [0; 1; 2; 3; 4; 5; 14; 15].
Proof. apply (mask_bits 49215 16); [vm_compute; split; [discriminate|reflexivity]|vm_compute; reflexivity|repeat constructor]. Qed.

(** [rx] reads [bs] from front to back; [At q s d]: the reader is at position [q]. *)
Definition reads_front {S} (rx : Z -> RM S (list Z)) (At : Z -> S -> dev -> Prop) (bs : list Z) : Prop :=
  forall q n s d, At q s d -> 0 <= n -> 0 <= q <= zlen bs ->
    (q + n <= zlen bs -> exists s' d', rx n s d = (d', (s', Ok (slice bs q (q + n)))) /\ At (q + n) s' d') /\
    (zlen bs < q + n -> exists s' d', rx n s d = (d', (s', Err (EIo UnexpectedEof)))).

Lemma reads_front_refines {S} read seek I posf good bs size : @refines S read seek I posf good bs size ->
  reads_front (fun n s d => rs_read_exact read s n d) (fun q s d => I s /\ good d /\ posf s = q) bs.
Proof.
  intros R q n s d (Hi & Hg & Hp) Hn Hq.
  destruct (refines_read_exact _ _ _ _ _ _ _ R s d n Hi Hg Hn) as (d' & s' & Hi' & Hg' & H). rewrite Hp in H. split; intros Hle.
  - destruct H as [(_ & E & Hp')|[(Hlt & _)|(-> & E & Hp')]].
    + exists s', d'. split; [|auto]. rewrite E. unfold slice. now replace (q + n - q) with n by lia.
    + lia.
    + exists s', d'. split; [|split; auto; split; auto; lia]. rewrite E. unfold slice. now rewrite (ztake_0 (q + 0 - q)) by lia.
  - destruct H as [(Hlt & _)|[(_ & _ & E)|(-> & E & Hp')]]; [lia| |lia]. rewrite E. eauto.
Qed.

Lemma attached_refines {S} read seek I posf good bs size : @refines S read seek I posf good bs size ->
  refines (attached read) seek I posf good bs size.
Proof.
  intros R. split.
  - apply (rf_pos _ _ _ _ _ _ _ R).
  - intros s d n Hi Hg Hn. destruct (rf_read _ _ _ _ _ _ _ R s d n Hi Hg Hn) as (d' & s' & E & H). unfold attached. rewrite E. eauto.
  - apply (rf_seek _ _ _ _ _ _ _ R).
Qed.

Lemma cursor_reads_front data p : zlen data <= U64_MAX ->
  reads_front cursor_exact (fun q s (d : dev) => (rv_data s = data /\ rv_position s = p /\ 0 <= rv_sp s <= U64_MAX) /\ True /\ res_stream_position s = q) data.
Proof. intros H. apply (reads_front_refines _ _ _ _ _ _ _ (res_refines data p H)). Qed.

Section New.
  Context {S : Type} (rx : Z -> RM S (list Z)) (At : Z -> S -> dev -> Prop) (bs : list Z) (Hb : bytes_ok bs).
  Context (Hrx : reads_front rx At bs).

  Lemma rx_ok q n s d : At q s d -> 0 <= q -> 0 <= n -> q + n <= zlen bs ->
    exists s' d', rx n s d = (d', (s', Ok (slice bs q (q + n)))) /\ At (q + n) s' d'.
  Proof. intros Ha Hq Hn Hle. apply (Hrx q n s d Ha); lia. Qed.

  Ltac step q n Ha := let s := fresh "s" in let d := fresh "d" in let E := fresh "E" in let A := fresh "A" in
    destruct (rx_ok q n _ _ Ha ltac:(lia) ltac:(lia) ltac:(lia)) as (s & d & E & A); unfold rm_bind at 1; rewrite E; cbn beta iota.
  Ltac fld := rewrite ?field_slice by lia; rewrite ?Z.add_0_l.
  Ltac flag := let i := fresh in let Hi := fresh in intros i Hi; first [apply file_flags_bits|apply vol_flags_bits]; exact Hi.

  Lemma si_new_ok p s d : At 0 s d -> decodes_exactly decodes_std_info bs (snd (snd (si_new rx p (zlen bs) s d))).
  Proof.
    intros Ha. unfold si_new. destruct (zlen bs <? 48) eqn:El.
    - cbn. intros v [H]. lia.
    - step 0 36 Ha. destruct (72 <=? zlen bs) eqn:E72.
      + cbn [Z.add] in A. step 36 36 A. cbn [rm_ret snd decodes_exactly]. unfold si1_of_bytes, si3_of_bytes.
        split; cbn [si_creation_time si_modification_time si_mft_record_modification_time si_access_time si_ntfs3 si_file_attributes si_attributes]; fld; auto; try lia.
        * intros i Hi. unfold si_file_attributes. cbn [si_attributes]. fld. now apply file_flags_bits.
        * intros _. eexists. split; [reflexivity|]. cbn. fld. auto 10.
      + cbn [rm_ret snd decodes_exactly]. unfold si1_of_bytes.
        split; cbn [si_creation_time si_modification_time si_mft_record_modification_time si_access_time si_ntfs3 si_file_attributes si_attributes]; fld; auto; try lia.
        intros i Hi. unfold si_file_attributes. cbn [si_attributes]. fld. now apply file_flags_bits.
  Qed.

  Lemma fn_new_ok p s d : At 0 s d -> decodes_exactly decodes_file_name bs (snd (snd (fn_new rx p (zlen bs) s d))).
  Proof.
    intros Ha. unfold fn_new. destruct (zlen bs <? 68) eqn:El.
    - cbn. intros v [H]. lia.
    - step 0 66 Ha. fld. pose proof (field1_bound bs 64 Hb). pose proof (field1_bound bs 65 Hb).
      destruct (zlen bs <? 66 + field 1 bs 64 * 2) eqn:En; [cbn; intros v [_ K]; lia|].
      destruct (3 <? field 1 bs 65) eqn:E3; [cbn; intros v [_ _ K]; lia|].
      cbn [Z.add] in A. step 66 (field 1 bs 64 * 2) A. cbn [rm_ret snd decodes_exactly]. unfold fn_of_header.
      split; cbn [fn_parent fn_creation_time fn_modification_time fn_mft_record_modification_time fn_access_time fn_allocated_size fn_data_size fn_name]; fld; auto; try lia.
      + rewrite slice_slice by lia. reflexivity.
      + intros i Hi. unfold fn_file_attributes. cbn [fn_attributes]. fld. now apply file_flags_bits.
      + unfold fn_is_directory, fn_file_attributes. cbn [fn_attributes]. fld. rewrite Z.land_spec. change (Z.testbit FILE_ATTRIBUTE_FLAGS 28) with true. apply andb_true_r.
      + unfold fn_namespace. cbn [fn_raw_namespace]. fld. now replace (field 1 bs 65 <=? 3) with true by lia.
      + unfold fn_name_length. cbn [fn_raw_name_length]. fld. lia.
      + f_equal. lia.
  Qed.

  Lemma vi_new_ok p s d : At 0 s d -> decodes_exactly decodes_vol_info bs (snd (snd (vi_new rx p (zlen bs) s d))).
  Proof.
    intros Ha. unfold vi_new. destruct (zlen bs <? 12) eqn:El.
    - cbn. intros v [H]. lia.
    - step 0 12 Ha. cbn [rm_ret snd decodes_exactly]. split; cbn [vi_major_version vi_minor_version]; fld; auto; try lia.
      intros i Hi. unfold vi_flags. cbn [vi_raw_flags]. now apply vol_flags_bits.
  Qed.

  Lemma vn_new_ok p s d : At 0 s d -> decodes_exactly decodes_vol_name bs (snd (snd (vn_new rx p (zlen bs) s d))).
  Proof.
    intros Ha. pose proof (zlen_nonneg bs). unfold vn_new. destruct (256 <? zlen bs) eqn:El.
    - cbn. intros v [K _]. lia.
    - destruct (rx_ok 0 (zlen bs) s d Ha) as (s' & d' & E & A); try lia. rewrite E. cbn. split; [lia|]. apply slice_all. lia.
  Qed.

  Lemma guid_of_slice a : 0 <= a -> guid_at bs a (guid_of_bytes (slice bs a (a + 16))).
  Proof.
    intros Ha. unfold guid_of_bytes, guid_at. cbn [g1 g2 g3 g4]. rewrite !field_slice by lia. rewrite slice_slice by lia.
    rewrite Z.add_0_r. auto.
  Qed.

  Lemma oi_new_ok p s d : At 0 s d -> decodes_exactly decodes_object_id bs (snd (snd (oi_new rx p (zlen bs) s d))).
  Proof.
    intros Ha. unfold oi_new. destruct (zlen bs <? 16) eqn:El.
    - cbn. intros v [H]. lia.
    - step 0 16 Ha. cbn [Z.add] in A.
      destruct (32 <=? zlen bs) eqn:E32.
      + destruct (rx_ok 16 16 _ _ A) as (s1 & d1 & E1 & A1); try lia. unfold rm_bind at 1. unfold rm_bind at 1. rewrite E1. cbn beta iota. unfold rm_ret at 1. cbn [Z.add] in A1.
        destruct (48 <=? zlen bs) eqn:E48.
        * destruct (rx_ok 32 16 _ _ A1) as (s2 & d2 & E2 & A2); try lia. unfold rm_bind at 1. unfold rm_bind at 1. rewrite E2. cbn beta iota. unfold rm_ret at 1. cbn [Z.add] in A2.
          destruct (64 <=? zlen bs) eqn:E64.
          -- destruct (rx_ok 48 16 _ _ A2) as (s3 & d3 & E3 & A3); try lia. unfold rm_bind at 1. unfold rm_bind at 1. rewrite E3. cbn beta iota. unfold rm_ret. cbn [snd decodes_exactly].
             split; cbn [oi_object_id oi_birth_volume_id oi_birth_object_id oi_domain_id guid_if_fits]; try (split; [lia|]); try apply guid_of_slice; lia.
          -- unfold rm_bind, rm_ret. cbn [snd decodes_exactly].
             split; cbn [oi_object_id oi_birth_volume_id oi_birth_object_id oi_domain_id guid_if_fits]; try (split; [lia|]); try apply guid_of_slice; lia.
        * replace (64 <=? zlen bs) with false by lia. unfold rm_bind, rm_ret. cbn [snd decodes_exactly].
          split; cbn [oi_object_id oi_birth_volume_id oi_birth_object_id oi_domain_id guid_if_fits]; try (split; [lia|]); try apply guid_of_slice; lia.
      + replace (48 <=? zlen bs) with false by lia. replace (64 <=? zlen bs) with false by lia. unfold rm_bind, rm_ret. cbn [snd decodes_exactly].
        split; cbn [oi_object_id oi_birth_volume_id oi_birth_object_id oi_domain_id guid_if_fits]; try (split; [lia|]); try apply guid_of_slice; lia.
  Qed.
End New.
