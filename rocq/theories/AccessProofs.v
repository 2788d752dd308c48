(** * Proofs for C47: header accessors. *)
From Verif Require Import Base Dev Types Record DataRuns Stream NonResident Resident Attribute File Structured AttrList Index
  Spec SpecIndex BaseProofs AttributeProofs RecordProofs FileProofs NodeProofs MiscProofs.

Lemma existsb_bits i l : existsb (Z.eqb i) l = true <-> In i l.
Proof. rewrite existsb_exists. split; [intros (x & H & E); apply Z.eqb_eq in E; now subst|intros H; exists i; split; [exact H|apply Z.eqb_refl]]. Qed.

Lemma testbit_49153 i : 0 <= i -> Z.testbit 49153 i = existsb (Z.eqb i) [0; 14; 15].
Proof.
  intros H. destruct (Z.le_gt_cases 16 i).
  - rewrite Z.bits_above_log2; [|lia|change (Z.log2 49153) with 15; lia]. symmetry. apply Bool.not_true_iff_false. rewrite existsb_bits. cbn. lia.
  - assert (K : exists n, i = Z.of_nat n /\ (n < 16)%nat) by (exists (Z.to_nat i); lia). destruct K as (n & -> & K).
    do 16 (destruct n as [|n]; [reflexivity|]). lia.
Qed.
Lemma testbit_3 i : 0 <= i -> Z.testbit 3 i = existsb (Z.eqb i) [0; 1].
Proof.
  intros H. destruct (Z.le_gt_cases 2 i).
  - rewrite Z.bits_above_log2; [|lia|change (Z.log2 3) with 1; lia]. symmetry. apply Bool.not_true_iff_false. rewrite existsb_bits. cbn. lia.
  - assert (K : i = 0 \/ i = 1) by lia. destruct K as [->| ->]; reflexivity.
Qed.

Lemma fixup_position r : rec_position (fst (fixup r)) = rec_position r.
Proof. unfold fixup. destruct (rbind _ _) as [[[u c] s]| | |]; auto. destruct (fixup_loop _ _ _ _ _ _) as [x y]. reflexivity. Qed.

Lemma file_accessors prot p n f : bytes_ok prot -> file_of_bytes prot p n = Ok f ->
  let data := f_data f in
  f_number f = n /\ f_position f = p /\
  f_sequence_number f = Ok (field 2 data 16) /\ f_hard_link_count f = Ok (field 2 data 18) /\
  f_data_size f = Ok (field 4 data 24) /\ f_allocated_size f = Ok (field 4 data 28) /\
  (exists fl, f_flags f = Ok fl /\ forall i, 0 <= i -> Z.testbit fl i = Z.testbit (field 2 data 22) i && existsb (Z.eqb i) [0; 1]) /\
  f_is_directory f = Ok (Z.testbit (field 2 data 22) 1) /\
  field 4 data 24 <= field 4 data 28 <= zlen data.
Proof.
  intros Hb H data. subst data. unfold file_of_bytes in H. destruct (file_validate_signature _) as [su| | |] eqn:Es; cbn in H; try discriminate.
  destruct (fixup _) as [r' [u| | |]] eqn:Ef; try discriminate. destruct (file_validate_sizes _) as [sv| | |] eqn:Ev; cbn in H; try discriminate.
  injection H as <-. unfold file_validate_sizes in Ev. unfold f_allocated_size, f_data_size, rd_u32 in Ev. unfold f_data in Ev. cbn [f_rec] in Ev.
  destruct (rd 4 (rec_data r') 28) as [al| | |] eqn:E1; try discriminate. cbn [rbind] in Ev.
  destruct (_ <? al) eqn:L1; try discriminate. destruct (rd 4 (rec_data r') 24) as [sz| | |] eqn:E2; try discriminate. cbn [rbind] in Ev.
  destruct (al <? sz) eqn:L2; try discriminate.
  assert (Ep : rec_position r' = p).
  { pose proof (f_equal (fun x => rec_position (fst x)) Ef) as K. cbn [fst] in K. rewrite <- K. apply fixup_position. }
  apply rd_ok in E1 as (_ & _ & Hl & ->). apply rd_ok in E2 as (_ & _ & _ & ->).
  assert (Hd : f_data (mkFile r' n) = rec_data r') by reflexivity. rewrite Hd.
  unfold f_sequence_number, f_hard_link_count, f_data_size, f_allocated_size, f_is_directory, f_flags, rd_u16, rd_u32. rewrite Hd.
  rewrite !rd_in by lia. cbn [rbind]. split; [reflexivity|]. split; [exact Ep|]. do 4 (split; [reflexivity|]).
  split; [eexists; split; [reflexivity|]; intros i Hi; now rewrite Z.land_spec, testbit_3|].
  split; [rewrite Z.land_spec; now rewrite andb_true_r|]. apply Z.ltb_ge in L1, L2. lia.
Qed.

Lemma attribute_accessors f off e : bytes_ok (f_data f) -> 0 <= off -> attr_fits (f_data f) off ->
  let a := mkAttr f off e in let data := f_data f in
  attr_length a = Ok (field 4 data (off + 4)) /\ attr_is_resident a = Ok (field 1 data (off + 8) =? 0) /\
  attr_name_length a = Ok (2 * field 1 data (off + 9)) /\ attr_instance a = Ok (field 2 data (off + 14)) /\
  (exists fl, attr_flags a = Ok fl /\ forall i, 0 <= i -> Z.testbit fl i = Z.testbit (field 2 data (off + 12)) i && existsb (Z.eqb i) [0; 14; 15]) /\
  (type_known (field 4 data off) -> attr_ty a = Ok (field 4 data off)) /\
  (~ type_known (field 4 data off) -> attr_ty a = Err (EUnsupportedAttributeType (attr_position a) (field 4 data off))) /\
  (field 1 data (off + 8) = 0 -> off + 20 <= zlen data -> attr_value_length a = Ok (field 4 data (off + 16))) /\
  (field 1 data (off + 8) <> 0 -> off + 56 <= zlen data -> attr_value_length a = Ok (field 8 data (off + 48))).
Proof.
  intros Hb Ho (H1 & H2 & H3) a data. subst a data.
  unfold attr_length, attr_value_length, attr_is_resident, attr_name_length, attr_instance, attr_flags, attr_ty, attr_resident_value_length, attr_nr_data_size, attr_rd.
  cbn [at_file at_offset]. rewrite !(rd_in _ _ (off + 4)), !(rd_in _ _ (off + 8)), !(rd_in _ _ (off + 9)), !(rd_in _ _ (off + 14)), !(rd_in _ _ (off + 12)), !(rd_in _ _ (off + 0)) by lia.
  cbn [rbind]. rewrite Z.add_0_r. split; [reflexivity|]. split; [reflexivity|]. split; [f_equal; lia|]. split; [reflexivity|].
  split; [eexists; split; [reflexivity|]; intros i Hi; now rewrite Z.land_spec, testbit_49153|].
  split; [intros K; apply known_type_spec in K; now rewrite K|].
  split; [intros K; destruct (known_type _) eqn:E; [apply known_type_spec in E; contradiction|reflexivity]|].
  split; intros K K2; [rewrite K|destruct (field 1 (f_data f) (off + 8) =? 0) eqn:E; [lia|]]; cbn [Z.eqb]; apply rd_in; lia.
Qed.

(** The entry returned for the bytes [s] consists of the first [index_entry_length] of them. *)
Lemma ie_new_ok s p e : bytes_ok s -> ie_new s p = Ok e -> 16 <= zlen s /\ field 2 s 8 <= zlen s /\ e = mkIE (ztake (field 2 s 8) s) p.
Proof.
  intros Hb H. unfold ie_new, ie_length, rd_u16 in H. cbn [ie_slice] in H. destruct (zlen s <? 16) eqn:E1; [discriminate|]. apply Z.ltb_ge in E1.
  rewrite rd_in in H by lia. cbn [rbind] in H. destruct (zlen s <? field 2 s 8) eqn:E2; [discriminate|]. apply Z.ltb_ge in E2.
  unfold idx_range in H. pose proof (field2_bound s 8 Hb). rewrite get_range_in in H by lia. cbn [rbind] in H. injection H as <-.
  split; auto. split; auto. unfold slice. rewrite zdrop_0 by lia. now rewrite Z.sub_0_r.
Qed.

Lemma field_ztake n l m o : 0 <= o -> 0 <= n -> o + n <= m -> field n (ztake m l) o = field n l o.
Proof.
  intros. unfold field, slice. rewrite zdrop_ztake by lia. rewrite ztake_ztake. now rewrite Z.min_l by lia.
Qed.

Lemma entry_accessors {D} (parse : list Z -> position -> res D) s p e : bytes_ok s -> ie_new s p = Ok e -> 16 <= field 2 s 8 ->
  let len := field 2 s 8 in
  ie_length e = Ok len /\ zlen (ie_slice e) = len /\ ie_position e = p /\ ie_key_length e = Ok (field 2 s 10) /\
  (exists fl, ie_flags e = Ok fl /\ forall i, 0 <= i -> Z.testbit fl i = Z.testbit (field 1 s 12) i && existsb (Z.eqb i) [0; 1]) /\
  ie_file_reference e = Ok (slice s 0 8) /\ ie_data_length e = Ok (field 2 s 2) /\
  (let o := field 2 s 0 in let l := field 2 s 2 in
   (o = 0 \/ l = 0 -> ie_data parse e = None) /\
   (o <> 0 -> l <> 0 -> o + l <= len -> ie_data parse e = Some (parse (slice s o (o + l)) (pos_add p o))) /\
   (o <> 0 -> l <> 0 -> len < o + l -> exists x, ie_data parse e = Some (Err x))) /\
  (let kl := field 2 s 10 in
   (kl = 0 \/ Z.testbit (field 1 s 12) 1 = true -> ie_key parse e = None) /\
   (kl <> 0 -> Z.testbit (field 1 s 12) 1 = false -> 16 + kl <= len -> ie_key parse e = Some (parse (slice s 16 (16 + kl)) (pos_add p 16))) /\
   (kl <> 0 -> Z.testbit (field 1 s 12) 1 = false -> len < 16 + kl -> exists x, ie_key parse e = Some (Err x))) /\
  (Z.testbit (field 1 s 12) 0 = false -> ie_subnode_vcn e = None) /\
  (Z.testbit (field 1 s 12) 0 = true -> 24 <= len -> ie_subnode_vcn e = Some (Ok (to_i64 (field 8 s (len - 8))))) /\
  (Z.testbit (field 1 s 12) 0 = true -> len < 24 -> exists x, ie_subnode_vcn e = Some (Err x)).
Proof.
  intros Hb He H16 len. destruct (ie_new_ok s p e Hb He) as (H1 & H2 & ->). fold len in H16, H2 |- *. clear He.
  set (t := ztake len s). assert (Ht : zlen t = len) by (unfold t; rewrite zlen_ztake; lia).
  assert (F : forall n o, 0 <= o -> 0 <= n -> o + n <= 16 -> rd n t o = Ok (field n s o)).
  { intros n o A B C. rewrite rd_in by lia. f_equal. unfold t. apply field_ztake; lia. }
  assert (S : forall a b, 0 <= a -> b <= len -> slice t a b = slice s a b).
  { intros a b A B. unfold slice, t. rewrite zdrop_ztake by lia. rewrite ztake_ztake. destruct (Z.le_gt_cases a b); [now rewrite Z.min_l by lia|].
    rewrite !(ztake_0 _ (zdrop a s)) by lia. reflexivity. }
  assert (L : ie_length (mkIE t p) = Ok len) by (apply F; lia).
  assert (FL : ie_flags (mkIE t p) = Ok (Z.land (field 1 s 12) 3)) by (unfold ie_flags, rd_u8; cbn [ie_slice]; rewrite F by lia; reflexivity).
  pose proof (field2_bound s 0 Hb). pose proof (field2_bound s 2 Hb). pose proof (field2_bound s 10 Hb). unfold U16_MAX in *.
  split; [exact L|]. split; [exact Ht|]. split; [reflexivity|]. split; [apply F; lia|].
  split; [eexists; split; [exact FL|]; intros i Hi; now rewrite Z.land_spec, testbit_3|].
  split; [unfold ie_file_reference, idx_range; cbn [ie_slice]; rewrite get_range_in by lia; now rewrite S by lia|].
  split; [apply F; lia|]. split; [|split; [|split; [|split]]].
  - unfold ie_data, ie_data_offset, ie_data_length, rd_u16. cbn [ie_slice ie_position]. rewrite !F by lia. cbn zeta.
    split; [intros [->| ->]; [reflexivity|destruct (field 2 s 0 =? 0); reflexivity]|].
    split; intros A B C; apply Z.eqb_neq in A, B; rewrite A, B; cbn [orb].
    + rewrite get_range_in by lia. now rewrite S by lia.
    + destruct (get_range _ _ _) eqn:E; [apply get_range_some in E; lia|]. eauto.
  - unfold ie_key, ie_key_length, ie_is_last, rd_u16. rewrite FL. cbn [ie_slice ie_position rbind]. rewrite F by lia. cbn zeta. rewrite Z.land_spec.
    change (Z.testbit 3 1) with true. rewrite andb_true_r.
    split; [intros [->| ->]; [reflexivity|destruct (field 2 s 10 =? 0); reflexivity]|].
    split; intros A B C; apply Z.eqb_neq in A; rewrite A, B.
    + rewrite get_range_in by lia. now rewrite S by lia.
    + destruct (get_range _ _ _) eqn:E; [apply get_range_some in E; lia|]. eauto.
  - intros A. unfold ie_subnode_vcn, ie_has_subnode. rewrite FL. cbn [rbind]. rewrite Z.land_spec, A. reflexivity.
  - intros A B. unfold ie_subnode_vcn, ie_has_subnode. rewrite FL, L. cbn [rbind]. rewrite Z.land_spec, A. cbn [andb]. change (Z.testbit 3 0) with true. cbn iota.
    destruct (len <? 8) eqn:E; [lia|]. rewrite Z.max_l by lia. cbn [ie_slice]. rewrite get_range_in by lia. rewrite S by lia. reflexivity.
  - intros A B. unfold ie_subnode_vcn, ie_has_subnode. rewrite FL, L. cbn [rbind]. rewrite Z.land_spec, A. cbn [andb]. change (Z.testbit 3 0) with true. cbn iota.
    destruct (len <? 8) eqn:E; [lia|]. rewrite Z.max_r by lia. cbn [ie_slice]. destruct (get_range _ _ _) eqn:G; [apply get_range_some in G; lia|]. eauto.
Qed.

Lemma attribute_position_at f off e p : f_position f = Some p -> 0 < p -> 0 <= off -> p + off <= U64_MAX ->
  attr_position (mkAttr f off e) = Some (p + off).
Proof.
  intros Hp H1 H2 H3. unfold attr_position. cbn [at_file at_offset]. rewrite Hp. unfold pos_add, pos_new.
  unfold U64_MAX in H3. rewrite ?Z.mod_small by (unfold TWO64; lia). destruct (p + off =? 0) eqn:E; [lia|reflexivity].
Qed.

Lemma entry_to_file nt s p e d : bytes_ok s -> ie_new s p = Ok e -> 16 <= field 2 s 8 -> ie_to_file nt e d = ntfs_file nt (field 6 s 0) d.
Proof.
  intros Hb He Hl. destruct (entry_accessors (D := Z) (fun _ _ => Panic) s p e Hb He Hl) as (_ & _ & _ & _ & _ & H & _).
  destruct (ie_new_ok s p e Hb He) as (K & _ & _).
  unfold ie_to_file. rewrite H. unfold mbind, mlift.
  assert (E : zlen (slice s 0 8) = 8) by (rewrite slice_len; lia).
  destruct (fr_split (slice s 0 8)) as (-> & _); [now apply bytes_ok_slice|exact E|].
  f_equal. unfold field, slice. rewrite !zdrop_0 by lia. rewrite ztake_ztake. reflexivity.
Qed.

Lemma node_accessors data p :
  (32 <= zlen data -> let r := mkIR data p in
   ir_data_size r = Ok (field 4 data 20) /\ ir_allocated_size r = Ok (field 4 data 24) /\ ir_record_size r = Ok (field 4 data 8) /\
   ir_is_large r = Ok (Z.testbit (field 1 data 28) 0)) /\
  (40 <= zlen data -> let r := mkRecord data p in
   irec_vcn r = Ok (to_i64 (field 8 data 16)) /\ irec_data_size r = Ok (field 4 data 28) /\ irec_allocated_size r = Ok (field 4 data 32) /\
   irec_has_subnodes r = Ok (Z.testbit (field 1 data 36) 0)).
Proof.
  split; intros H; cbn zeta; unfold ir_data_size, ir_allocated_size, ir_record_size, ir_is_large, irec_vcn, irec_data_size, irec_allocated_size, irec_has_subnodes,
    rd_u8, rd_u32, rd_u64; cbn [ir_slice rec_data]; rewrite !rd_in by lia; cbn [rbind]; auto.
Qed.
