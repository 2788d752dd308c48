(** * File records and [Ntfs::file]. *)
From Coq Require Import Lia.
From Verif Require Import Base Dev Types Record DataRuns Stream NonResident Resident Attribute File Spec BaseProofs DevProofs
  RecordProofs DataRunsProofs StreamProofs ReaderProofs NonResidentProofs AttributeProofs.

(** ** No panics *)
Lemma nr_new_returns cs data p size : 1 <= cs -> bytes_ok data -> returns (nr_new cs data p size).
Proof.
  intros Hcs Hb. unfold nr_new, nr_next_data_run. cbn [nv_cs nv_data nv_position nv_runs nv_ss].
  destruct (druns_next cs data p druns_start) as [s' x] eqn:E.
  destruct (druns_next_spec cs data p druns_start s' x Hcs Hb) as (Hs & _); auto; try (cbn; unfold U64_MAX; lia).
  inversion Hs; subst; cbn; auto.
Qed.

Section Attr.
  Context (f : file) (Hb : bytes_ok (f_data f)) (cs : Z) (Hcs : 1 <= cs).
  Notation data := (f_data f).

  Lemma attr_basic_returns off e : 0 <= off -> attr_fits data off ->
    let a := mkAttr f off e in
    attr_length a = Ok (attr_len_at data off) /\ attr_instance a = Ok (attr_instance_at data off) /\
    (exists b, attr_is_resident a = Ok b /\ (b = true <-> attr_resident_at data off)) /\
    (exists x, attr_flags a = Ok x) /\ (exists x, attr_name_offset a = Ok x) /\ (exists x, attr_name_length a = Ok x) /\
    returns (attr_ty a) /\ returns (attr_name a).
  Proof.
    intros Ho Hf a. pose proof Hf as (H1 & H2 & H3).
    unfold attr_length, attr_instance, attr_is_resident, attr_flags, attr_name_offset, attr_name_length, a.
    rewrite !attr_rd_in by lia. cbn [rbind]. splits; eauto.
    - eexists; split; [reflexivity|]. unfold attr_resident_at. lia.
    - destruct (attr_ty_spec f off e Ho Hf) as (T1 & T2).
      destruct (in_dec Z.eq_dec (attr_type_at data off) [16; 32; 48; 64; 80; 96; 112; 128; 144; 160; 176; 192; 208; 224; 240; 256; 4294967295]) as [Hk|Hk];
      [rewrite (T1 Hk)|rewrite (T2 Hk)]; cbn; auto.
    - destruct (attr_name_spec f Hb off e Ho Hf) as [(bs & -> & _)|(x & -> & _)]; cbn; auto.
  Qed.

  Lemma attr_nr_returns off e : 0 <= off -> attr_fits data off -> off + 56 <= zlen data -> returns (attr_nr_value cs (mkAttr f off e)).
  Proof.
    intros Ho (H1 & H2 & H3) H4. unfold attr_nr_value, attr_nr_data_and_position, attr_nr_runs_offset, attr_length, attr_nr_data_size.
    rewrite !attr_rd_in by lia. cbn [rbind at_file at_offset].
    destruct (get_range data _ _) as [s|] eqn:E; cbn [rbind]; [|exact I]. cbn [fst snd]. apply nr_new_returns; auto.
    apply get_range_some in E as (_ & _ & ->). now apply bytes_ok_slice.
  Qed.

  Lemma attr_value_returns off e : 0 <= off -> attr_fits data off -> off + 56 <= zlen data ->
    let a := mkAttr f off e in returns (attr_value_simple cs a) /\ returns (attr_value_length a).
  Proof.
    intros Ho Hf H4 a. pose proof (attr_nr_returns off e Ho Hf H4) as Hn. fold a in Hn.
    pose proof Hf as (H1 & H2 & H3). unfold attr_value_simple, attr_value_length, attr_is_resident, a.
    rewrite !attr_rd_in by lia. cbn [rbind]. destruct (field 1 data (off + 8) =? 0).
    - destruct (attr_resident_value_spec f Hb off e Ho Hf) as [(bs & -> & _)|(x & -> & _)]; try lia; cbn [rbind];
      unfold attr_resident_value_length; rewrite attr_rd_in by lia; split; exact I.
    - unfold attr_nr_data_size; rewrite attr_rd_in by lia. split; [|exact I]. fold a. destruct (attr_nr_value cs a); cbn in *; auto.
  Qed.

  (** Resident attributes only need their own header. *)
  Lemma attr_value_returns_resident off e : 0 <= off -> attr_fits data off -> attr_resident_at data off -> off + 22 <= zlen data ->
    let a := mkAttr f off e in returns (attr_value_simple cs a) /\ returns (attr_value_length a).
  Proof.
    intros Ho Hf Hr H4 a. pose proof Hf as (H1 & H2 & H3). unfold attr_value_simple, attr_value_length, attr_is_resident, a.
    rewrite !attr_rd_in by lia. cbn [rbind]. unfold attr_resident_at in Hr. rewrite Hr. cbn [Z.eqb].
    destruct (attr_resident_value_spec f Hb off e Ho Hf) as [(bs & -> & _)|(x & -> & _)]; try lia; cbn [rbind];
    unfold attr_resident_value_length; rewrite attr_rd_in by lia; split; exact I.
  Qed.
End Attr.


(** ** File records *)
Lemma bytes_ok_byte_at l : bytes_ok l <-> forall k x, 0 <= k -> byte_at l k = Some x -> is_byte x.
Proof.
  unfold bytes_ok, byte_at. rewrite Forall_forall. split.
  - intros H k x Hk E. apply H. eapply nth_error_In; eauto.
  - intros H x Hx. apply In_nth_error in Hx as (n & E). apply (H (Z.of_nat n)); [lia|]. now rewrite Nat2Z.id.
Qed.

Lemma at_block_end_dec count k : 0 <= k -> {at_block_end count k} + {~ at_block_end count k}.
Proof.
  intros Hk. destruct (Z_lt_le_dec (k / 512) count) as [H1|H1].
  - destruct (Z_lt_le_dec (k mod 512) 510) as [H2|H2].
    + right. intros (i & Hi & Hb). unfold block_end in Hb. assert (k / 512 = i) by lia. lia.
    + left. exists (k / 512). unfold block_end. lia.
  - right. intros (i & Hi & Hb). unfold block_end in Hb. assert (k / 512 = i) by lia. lia.
Qed.

Lemma stored_byte data prot k : stored_as data prot -> bytes_ok prot -> 0 <= k < zlen prot -> exists j, 0 <= j < zlen prot /\ byte_at data k = byte_at prot j /\
  forall data2, stored_as data2 prot -> byte_at data2 k = byte_at prot j.
Proof.
  intros [Hf Hl Hm Hr Hrest] Hb Hk. destruct (at_block_end_dec (field 2 prot 6 - 1) k ltac:(lia)) as [(i & Hi & Hbe)|Hn].
  - set (off := field 2 prot 4) in *. exists (off + 2 + 2 * i + (k - block_end i)).
    destruct Hf as (F1 & F2 & F3 & F4). fold off in F1, F3. pose proof (field2_bound prot 4 Hb) as Hob. fold off in Hob.
    assert (Hx : forall d2, (forall i0 : Z, 0 <= i0 < field 2 prot 6 - 1 ->
      slice d2 (block_end i0) (block_end i0 + 2) = slice prot (off + 2 + 2 * i0) (off + 4 + 2 * i0)) ->
      byte_at d2 k = byte_at prot (off + 2 + 2 * i + (k - block_end i))).
    { intros d2 H2. specialize (H2 i Hi). unfold block_end in *.
      assert (E : byte_at (slice d2 (512 * i + 510) (512 * i + 510 + 2)) (k - (512 * i + 510)) =
        byte_at (slice prot (off + 2 + 2 * i) (off + 4 + 2 * i)) (k - (512 * i + 510))) by now rewrite H2.
      rewrite !byte_at_slice in E by lia. replace (512 * i + 510 + (k - (512 * i + 510))) with k in E by lia. exact E. }
    split; [unfold block_end in *; lia|]. split; [apply Hx; auto|]. intros d2 [_ _ _ H2 _]. apply Hx. exact H2.
  - exists k. split; auto. split; [apply Hrest; auto; lia|]. intros d2 [_ _ _ _ H2]. apply H2; auto. lia.
Qed.

Lemma stored_unique d1 d2 prot : bytes_ok prot -> stored_as d1 prot -> stored_as d2 prot -> d1 = d2.
Proof.
  intros Hb H1 H2. pose proof (st_len _ _ H1). pose proof (st_len _ _ H2). apply byte_at_ext; [lia|].
  intros k Hk. destruct (stored_byte d1 prot k H1 Hb ltac:(lia)) as (j & _ & E & E2). rewrite E. symmetry. auto.
Qed.

Lemma stored_bytes_ok data prot : bytes_ok prot -> stored_as data prot -> bytes_ok data.
Proof.
  intros Hb H. apply bytes_ok_byte_at. intros k x Hk E. pose proof (st_len _ _ H).
  destruct (Z_lt_le_dec k (zlen prot)) as [Hlt|Hge]; [|rewrite byte_at_none in E by lia; discriminate].
  destruct (stored_byte data prot k H Hb ltac:(lia)) as (j & Hj & E2 & _). rewrite E in E2. symmetry in E2.
  eapply bytes_ok_byte_at; [exact Hb| |exact E2]. lia.
Qed.

Lemma stored_signature data prot : stored_as data prot -> slice data 0 4 = slice prot 0 4.
Proof.
  intros H. pose proof (st_len _ _ H) as Hl.
  assert (Hx : forall k, 0 <= k < 4 -> byte_at data k = byte_at prot k).
  { intros k Hk. apply (st_rest _ _ H); [lia|]. intros (i & Hi & Hb). unfold block_end in Hb. lia. }
  apply byte_at_ext.
  - unfold slice. rewrite !zlen_ztake, !zlen_zdrop. lia.
  - intros k Hk. unfold slice in Hk. rewrite zlen_ztake, zlen_zdrop in Hk. rewrite !byte_at_slice by lia. apply Hx. lia.
Qed.

Lemma file_of_bytes_spec prot p n : bytes_ok prot -> 32 <= zlen prot <= U16_MAX ->
  array_clear (field 2 prot 4) (field 2 prot 6 - 1) ->
  (forall f, file_of_bytes prot p n = Ok f <->
     exists data, f = mkFile (mkRecord data p) n /\ stored_as data prot /\ file_record_ok data).
Proof.
  intros Hb Hl Hc f. unfold file_of_bytes, file_validate_signature, rec_signature. cbn [rec_data rec_position]. unfold idx_range.
  rewrite get_range_in by lia. cbn [rbind].
  destruct (fixup (mkRecord prot p)) as [r' out] eqn:Ef.
  destruct (fixup_exact prot p r' out Hb ltac:(lia) Ef) as (H1 & H2 & _). cbn zeta in *.
  destruct (fixup_spec prot p Hb ltac:(lia)) as (data' & out' & E' & _). rewrite Ef in E'. injection E' as -> <-. cbn [rec_data] in *.
  assert (Hst : out = Ok tt -> stored_as data' prot).
  { intros Ho. destruct (H2 Ho) as (K1 & K2 & K3). destruct (proj1 H1 Ho) as (K4 & K5). split; auto. }
  assert (Hval : out = Ok tt -> file_validate_sizes (mkFile (mkRecord data' p) n) = Ok tt <->
     (field 4 data' 28 <= zlen data' /\ field 4 data' 24 <= field 4 data' 28)).
  { intros Ho. pose proof (st_len _ _ (Hst Ho)) as Hl'. unfold file_validate_sizes, f_allocated_size, f_data_size, f_data, rd_u32. cbn [f_rec rec_data].
    rewrite !rd_in by lia. cbn [rbind]. destruct (zlen data' <? field 4 data' 28) eqn:E1; [split; [discriminate|lia]|].
    destruct (field 4 data' 28 <? field 4 data' 24) eqn:E2; split; try discriminate; auto; lia. }
  split.
  - destruct (list_eqb _ _) eqn:Es; cbn [rbind]; [|discriminate]. apply list_eqb_eq in Es.
    destruct out as [[]|e| |]; try discriminate. specialize (Hst eq_refl). specialize (Hval eq_refl).
    destruct (file_validate_sizes _) as [[]|e| |] eqn:Ev; cbn [rbind]; try discriminate. intros [= <-].
    exists data'. split; auto. split; auto. destruct (proj1 Hval eq_refl). split; auto. now rewrite (stored_signature _ _ Hst).
  - intros (data & -> & Hs & Hok1 & Hok2 & Hok3).
    assert (Ho : out = Ok tt) by (apply H1; split; [apply Hs|intros; now apply (st_marked _ _ Hs)]). subst out.
    assert (data' = data) by (eapply stored_unique; eauto). subst data'.
    rewrite (stored_signature _ _ Hs) in Hok1. rewrite Hok1. cbn [list_eqb Z.eqb Pos.eqb andb rbind].
    rewrite (proj2 (Hval eq_refl)) by lia. reflexivity.
Qed.

Lemma file_of_bytes_returns prot p n : bytes_ok prot -> 32 <= zlen prot <= U16_MAX -> returns (file_of_bytes prot p n).
Proof.
  intros Hb Hl. unfold file_of_bytes, file_validate_signature, rec_signature. cbn [rec_data rec_position]. unfold idx_range.
  rewrite get_range_in by lia. cbn [rbind]. destruct (list_eqb _ _); cbn [rbind]; [|exact I].
  pose proof (fixup_outcome prot p Hb ltac:(lia)) as Ho.
  destruct (fixup_spec prot p Hb ltac:(lia)) as (data' & out & E' & Hl' & _). rewrite E' in *. cbn [snd] in Ho.
  destruct out as [[]|e| |]; try tauto; [|exact I].
  unfold file_validate_sizes, f_allocated_size, f_data_size, f_data, rd_u32. cbn [f_rec rec_data].
  rewrite !rd_in by lia. cbn [rbind]. destruct (_ <? _); [exact I|]. destruct (_ <? _); exact I.
Qed.

(** ** Reading a record from the device *)
Lemma file_new_spec nt p n d : faultless d -> 0 <= p -> 0 < file_record_size nt ->
  let frs := file_record_size nt in
  exists d', faultless d' /\ d_img d' = d_img d /\
   (p + frs <= zlen (d_img d) -> file_new nt p n d = (d', file_of_bytes (slice (d_img d) p (p + frs)) (Some p) n)) /\
   (zlen (d_img d) < p + frs -> file_new nt p n d = (d', Err (EIo UnexpectedEof))).
Proof.
  intros Hf Hp Hfr frs. unfold file_new, mbind. destruct (dev_seek_faultless p d Hf) as (d1 & E1 & F1 & P1 & I1 & _). rewrite E1.
  fold frs. destruct (Z_le_gt_dec (p + frs) (zlen (d_img d))) as [Hle|Hgt].
  - destruct (dev_read_exact_ok frs d1) as (d2 & E2 & F2 & I2 & _); auto; try lia; [rewrite P1, I1; lia|].
    rewrite E2. exists d2. splits; auto; [congruence| |lia]. intros _. unfold mlift. rewrite P1, I1. unfold slice. do 3 f_equal. lia.
  - destruct (dev_read_exact_eof frs d1) as (d2 & E2 & F2 & I2 & _); auto; try lia; [rewrite P1, I1; lia|].
    rewrite E2. exists d2. splits; auto; [congruence|lia].
Qed.

(** ** [Ntfs::file] *)
Lemma find_data_attribute f before o after b : bytes_ok (f_data f) -> 22 <= zlen (f_data f) ->
  attr_walk (f_data f) (field 2 (f_data f) 20) (before ++ o :: after) b ->
  Forall (fun x => type_known (attr_type_at (f_data f) x) /\ attr_type_at (f_data f) x <> 128) before ->
  attr_type_at (f_data f) o = 128 -> find_resident_attribute f TY_Data None None = Ok (mkAttr f o None).
Proof.
  intros Hb Hl W Hbef Ho. unfold find_resident_attribute, raw_start, f_first_attribute_offset, rd_u16. rewrite rd_in by lia. cbn [rbind].
  pose proof (field2_bound (f_data f) 20 Hb) as Hs.
  pose proof (walk_length f _ _ _ W ltac:(lia)) as (_ & Hlen).
  pose proof (find_loop_spec f Hb _ _ _ TY_Data None None W ltac:(lia) (length (f_data f) + 1)) as H.
  assert (Hfu : (length (before ++ o :: after) < length (f_data f) + 1)%nat).
  { destruct Hlen as [->|Hlen]; [cbn; lia|]. unfold zlen in *. lia. }
  specialize (H Hfu).
  assert (Hx : forall l1 o' l2, before ++ o :: after = l1 ++ o' :: l2 -> Forall (is_other (f_data f) TY_Data None None) l1 ->
     is_match (f_data f) TY_Data None None o' -> o' = o).
  { clear - Hbef Ho. induction before as [|x before IH]; intros l1 o' l2 E Hoth Hm.
    - destruct l1 as [|y l1]; [now injection E as <-|]. injection E as <- E. apply Forall_inv in Hoth. destruct Hoth as (_ & [K|[(i & K & _)|(nm & bs & K & _)]]); [|discriminate|discriminate].
      unfold TY_Data in K. congruence.
    - inversion Hbef; subst. destruct l1 as [|y l1].
      + injection E as <- E. destruct Hm as (K & _). unfold TY_Data in K. tauto.
      + injection E as <- E. inversion Hoth; subst. eapply IH; eauto. }
  assert (Hnot : ~ Forall (is_other (f_data f) TY_Data None None) (before ++ o :: after)).
  { intros K. apply Forall_app in K as (_ & K). apply Forall_inv in K. destruct K as (_ & [K|[(i & K & _)|(nm & bs & K & _)]]); [|discriminate|discriminate].
    unfold TY_Data in K. congruence. }
  destruct (find_resident_loop _ _ _ _ _ _) as [a|e| |] eqn:Ea; try tauto.
  - destruct H as (l1 & o' & l2 & E & -> & Hm & Hoth). f_equal. f_equal. eapply Hx; eauto.
  - exfalso. destruct H as [(_ & _ & K)|[(_ & K)|(l1 & o' & l2 & E & Hoth & Hbad)]]; [tauto|tauto|].
    destruct Hbad as [Hbad|(_ & _ & Hbad & _)]; [|congruence].
    clear - Hbef Ho E Hoth Hbad. revert l1 E Hoth. induction before as [|x before IH]; intros l1 E Hoth.
    + destruct l1 as [|y l1].
      * injection E as <- _. apply Hbad. rewrite Ho. cbn. tauto.
      * injection E as <- E. apply Forall_inv in Hoth. destruct Hoth as (_ & [K|[(i & K & _)|(nm & bs & K & _)]]); [|discriminate|discriminate].
        unfold TY_Data in K. congruence.
    + inversion Hbef; subst. destruct l1 as [|y l1]; [injection E as <- E; tauto|]. injection E as <- E. inversion Hoth; subst. eapply IH; eauto.
Qed.

Lemma walk_fits f off l1 o l2 b : attr_walk (f_data f) off (l1 ++ o :: l2) b -> 0 <= off -> 0 <= o /\ attr_fits (f_data f) o.
Proof.
  intros W Ho. destruct (walk_length f _ _ _ W Ho) as (K & _). apply Forall_app in K as (_ & K). apply Forall_inv in K. split; [lia|apply K].
Qed.

Lemma attr_value_extents f cs o e : bytes_ok (f_data f) -> 0 <= o -> attr_fits (f_data f) o -> o + 56 <= zlen (f_data f) ->
  ~ attr_resident_at (f_data f) o -> field 2 (f_data f) (o + 32) <= attr_len_at (f_data f) o ->
  attr_value_simple cs (mkAttr f o e) =
    (let? v := nr_new cs (slice (f_data f) (o + field 2 (f_data f) (o + 32)) (o + attr_len_at (f_data f) o))
       (pos_add (f_position f) (o + field 2 (f_data f) (o + 32))) (field 8 (f_data f) (o + 48)) in Ok (SVNr v)).
Proof.
  intros Hb Ho (H1 & H2 & H3) H4 Hr Hro. unfold attr_value_simple, attr_nr_value, attr_nr_data_and_position, attr_is_resident, attr_nr_runs_offset, attr_length, attr_nr_data_size.
  rewrite !attr_rd_in by lia. unfold attr_resident_at in Hr. cbn [rbind]. replace (field 1 (f_data f) (o + 8) =? 0) with false by lia.
  cbn [at_file at_offset]. pose proof (field2_bound (f_data f) (o + 32) Hb).
  unfold attr_len_at in *. rewrite get_range_in by lia. reflexivity.
Qed.

(** What [Ntfs::file] does on a healthy MFT. *)
Lemma ntfs_file_spec img nt mp mdata l d n :
  bytes_ok img -> faultless d -> d_img d = img -> mft_position nt = Some mp -> 32 <= file_record_size nt <= U16_MAX ->
  mft_at img mp (file_record_size nt) mdata l -> valid_extents (cluster_size nt) img l -> 0 <= n <= U64_MAX ->
  let frs := file_record_size nt in
  exists d', faultless d' /\ d_img d' = img /\ ntfs_file nt n d = (d',
    if n * frs <=? U64_MAX then
      match disk_position (cluster_size nt) l (n * frs) with
      | None => Err (EInvalidFileRecordNumber n)
      | Some p => if p + frs <=? zlen img then file_of_bytes (slice img p (p + frs)) (Some p) n else Err (EIo UnexpectedEof)
      end
    else Err (EInvalidFileRecordNumber n)).
Proof.
  intros Hb Hf Hi Hmp Hfrs [Himg (Hst & Hok) Hcl (before & o & after & b & W & Hbef & Hty & Hres & H56 & Hsz & Hro & Henc)] Hv Hn frs.
  unfold ntfs_file, checked_mul64. fold frs. destruct (n * frs <=? U64_MAX) eqn:E0; [|exists d; auto].
  rewrite Hmp. set (prot := slice img mp (mp + frs)) in *.
  assert (Hpb : bytes_ok prot) by now apply bytes_ok_slice.
  assert (Hpl : zlen prot = frs) by (unfold prot; rewrite slice_len; unfold frs; lia).
  pose proof (stored_bytes_ok _ _ Hpb Hst) as Hmb. pose proof (st_len _ _ Hst) as Hml.
  destruct (file_new_spec nt mp 0 d Hf ltac:(lia) ltac:(lia)) as (d1 & F1 & I1 & E1 & _). fold frs in E1. rewrite Hi in *. specialize (E1 ltac:(unfold frs; lia)).
  assert (Ef : file_of_bytes prot (Some mp) 0 = Ok (mkFile (mkRecord mdata (Some mp)) 0)).
  { apply file_of_bytes_spec; auto; [unfold frs in *; lia|]. exists mdata; auto. }
  fold prot in E1. rewrite Ef in E1. unfold mbind at 1. rewrite E1. set (f := mkFile (mkRecord mdata (Some mp)) 0) in *.
  change mdata with (f_data f) in W, Hbef, Hty, Hres, H56, Hsz, Hro, Henc, Hmb, Hml.
  pose proof (field2_bound (f_data f) 20 Hmb) as H20.
  destruct (walk_fits f _ _ _ _ _ W ltac:(lia)) as (Ho0 & Hofit).
  rewrite (find_data_attribute f before o after b Hmb ltac:(unfold frs in *; lia) W Hbef Hty).
  unfold mbind, mlift. rewrite (attr_value_extents f (cluster_size nt) o None Hmb Ho0 Hofit H56 Hres Hro).
  set (enc := slice (f_data f) _ _) in *. set (p := pos_add _ _). set (size := field 8 (f_data f) (o + 48)) in *.
  pose proof (field8_bound (f_data f) (o + 48) Hmb) as Hsb. fold size in Hsb.
  destruct (nr_extents_new (cluster_size nt) img l enc p size Hv Henc) as (v & Ev & _ & P0 & _).
  rewrite Ev. cbn [rbind sv_seek]. assert (Hge : 0 <= n * frs) by (unfold frs in *; nia).
  destruct (nr_history_seek (cluster_size nt) img l enc p size Hv Henc ltac:(lia) [] d1 d1 v v (SStart (n * frs)) I1 ltac:(constructor) ltac:(cbn; lia) Ev eq_refl) as (Hs & _).
  cbn [seek_target] in Hs. destruct (Hs ltac:(lia)) as (d2 & v2 & Es & P2).
  destruct (nr_history_position (cluster_size nt) img l enc p size Hv Henc ltac:(lia) [] d1 d1 v v I1 ltac:(constructor) Ev eq_refl) as (_ & Hpos).
  assert (Hg2 : faultless d2 /\ d_img d2 = img /\ (n * frs = 0 -> v2 = v)).
  { assert (Hg1 : good img true d1) by (split; auto).
    destruct (nr_exec_inv (cluster_size nt) img l enc p size Hv Henc ltac:(lia) true [OSeek (SStart (n * frs))] v d1 d2 v2) as (_ & G2); auto.
    - destruct (nr_extents_new (cluster_size nt) img l enc p size Hv Henc) as (v0 & E & I0 & _). assert (v0 = v) by congruence. now subst.
    - constructor; auto. cbn. lia.
    - cbn [reader_exec reader_step]. now rewrite Es.
    - destruct G2 as (G2 & G3). splits; auto. intros E. rewrite E in Es. unfold nr_seek, stream_seek, optimize_seek in Es. cbn [simplify_seek rbind] in Es.
      unfold checked_sub64 in Es. cbn [so_ss nr_ops] in Es. unfold nr_stream_position in P0. rewrite P0 in Es. cbn [Z.leb Z.compare Z.sub Z.opp Z.add] in Es.
      unfold I64_MAX in Es. cbn [Z.leb Z.compare] in Es. unfold stream_seek_finish in Es.
      destruct (nr_fuel v d1); cbn [stream_seek_loop Z.leb Z.compare so_ss nr_ops] in Es; rewrite P0 in Es; cbn in Es; injection Es as _ <-;
      destruct v as [? ? ? ? [? ? ?]]; cbn in *; subst; reflexivity. }
  destruct Hg2 as (F2 & I2 & Hv2). rewrite Es.
  assert (Hdp : sv_data_position (SVNr v2) = disk_position (cluster_size nt) l (n * frs)).
  { cbn [sv_data_position]. destruct (Z.eq_dec (n * frs) 0) as [E|E].
    - rewrite (Hv2 E), E. eapply nr_fresh_position; eauto.
    - eapply Hpos; [|exact Es| |]; [cbn; lia|lia|left; lia]. }
  rewrite Hdp. destruct (disk_position _ l (n * frs)) as [q|] eqn:Eq; [|exists d2; auto].
  assert (Hq : 0 <= q).
  { clear - Eq Hv Hge. destruct Hv as [Hcs _ Hfit _ _]. revert Eq Hge. generalize (n * frs) as x. induction l as [|e t IH]; intros x; cbn [disk_position]; [discriminate|].
    inversion Hfit as [|? ? (A1 & A2 & A3) Hfit']; subst. destruct (x <? e_count e * cluster_size nt) eqn:E.
    - destruct (e_lcn e); [|discriminate]. intros [= <-] Hx. nia.
    - intros Hx Hge. eapply IH; eauto. lia. }
  destruct (file_new_spec nt q n d2 F2 Hq ltac:(lia)) as (d3 & F3 & I3 & Ea & Eb). fold frs in Ea, Eb. rewrite I2 in *.
  exists d3. splits; auto. destruct (q + frs <=? zlen img) eqn:E9; [apply Ea; lia|apply Eb; lia].
Qed.

(** ** Records inside one extent *)
Lemma zlen_content cs img l : 1 <= cs -> Forall (extent_on_device cs img) l -> zlen (concat (map (extent_bytes cs img) l)) = extents_size cs l.
Proof.
  intros Hcs. induction 1 as [|e t (H1 & H2) _ IH]; [reflexivity|]. cbn [map concat extents_size]. rewrite zlen_app, IH. f_equal.
  unfold extent_bytes. destruct (e_lcn e) as [lcn|]; [rewrite slice_len by nia; lia|rewrite zlen_zrepeat; nia].
Qed.

Lemma slice_app_mid (a b c : list Z) i j : 0 <= i -> i <= j -> j <= zlen b ->
  slice (a ++ b ++ c) (zlen a + i) (zlen a + j) = slice b i j.
Proof.
  intros. unfold slice. rewrite zdrop_app. rewrite (zdrop_all _ a) by lia. cbn [app]. replace (zlen a + i - zlen a) with i by lia.
  rewrite zdrop_app, ztake_app, zlen_zdrop. replace (zlen a + j - (zlen a + i)) with (j - i) by lia.
  rewrite (ztake_0 _ (zdrop (i - zlen b) c)) by lia. apply app_nil_r.
Qed.

Lemma one_extent_slice cs img l a b : valid_extents cs img l -> in_one_extent cs l a b -> 0 <= a ->
  exists p, disk_position cs l a = Some p /\ 0 <= p /\ p + (b - a) <= zlen img /\
    slice img p (p + (b - a)) = slice (concat (map (extent_bytes cs img) l)) a b /\ b <= extents_size cs l.
Proof.
  intros [Hcs Himg Hf Hd _] (l1 & e & l2 & -> & He & Ha & Hab & Hb) Ha0.
  apply Forall_app in Hf as (Hf1 & Hf2). apply Forall_app in Hd as (Hd1 & Hd2). pose proof (Forall_inv Hf2) as (F1 & F2 & F3).
  pose proof (Forall_inv Hd2) as (D1 & D2). destruct (e_lcn e) as [lcn|] eqn:El; [|congruence].
  rewrite extents_size_app in Hb. cbn [extents_size] in Hb.
  assert (Hdp : disk_position cs (l1 ++ e :: l2) a = Some (lcn * cs + (a - extents_size cs l1))).
  { replace (disk_position cs (l1 ++ e :: l2) a) with (disk_position cs (l1 ++ e :: l2) (extents_size cs l1 + (a - extents_size cs l1))) by (f_equal; lia).
    rewrite disk_position_app by (auto; lia). cbn [disk_position]. replace (_ <? _) with true by lia. now rewrite El. }
  eexists; split; [exact Hdp|].
  pose proof (extents_size_nonneg cs l2 Hcs (Forall_inv_tail Hf2)).
  splits; [nia|nia| |rewrite extents_size_app; cbn [extents_size]; lia].
  rewrite map_app, concat_app. cbn [map concat]. pose proof (zlen_content cs img l1 Hcs Hd1) as Hz.
  set (s := extents_size cs l1) in *. 
  assert (Hlen : zlen (extent_bytes cs img e) = e_count e * cs) by (unfold extent_bytes; rewrite El, slice_len; nia).
  replace (slice (concat (map (extent_bytes cs img) l1) ++ extent_bytes cs img e ++ concat (map (extent_bytes cs img) l2)) a b)
    with (slice (extent_bytes cs img e) (a - s) (b - s)) by (rewrite <- (slice_app_mid (concat (map (extent_bytes cs img) l1)) _ (concat (map (extent_bytes cs img) l2))) by lia; f_equal; lia).
  unfold extent_bytes. rewrite El. unfold slice.
  rewrite zdrop_ztake, ztake_ztake, zdrop_zdrop by nia. f_equal; [|f_equal]; lia.
Qed.

(** If a cluster holds whole records, no record straddles extents. *)
Lemma aligned_one_extent cs l frs : forall n, 1 <= cs -> 0 < frs -> (frs | cs) -> Forall (extent_fits cs) l ->
  0 <= n -> disk_position cs l (n * frs) <> None -> in_one_extent cs l (n * frs) (n * frs + frs).
Proof.
  intros n Hcs Hfr (k & Hk) Hf. revert n. induction Hf as [|e t (F1 & F2 & _) Hf IH]; intros n Hn Hdp; cbn [disk_position] in Hdp; [congruence|].
  destruct (n * frs <? e_count e * cs) eqn:E.
  - exists [], e, t. cbn [app extents_size]. split; auto. split; [destruct (e_lcn e); congruence|].
    assert (n * frs < e_count e * k * frs) by nia. assert (n < e_count e * k) by nia. nia.
  - destruct (IH (n - e_count e * k)) as (l1 & e' & l2 & -> & H1 & H2 & H3 & H4).
    + assert (e_count e * k * frs <= n * frs) by nia. nia.
    + replace ((n - e_count e * k) * frs) with (n * frs - e_count e * cs) by (rewrite Hk; ring). exact Hdp.
    + exists (e :: l1), e', l2. split; auto. split; auto. cbn [app extents_size]. replace ((n - e_count e * k) * frs) with (n * frs - e_count e * cs) in * by (rewrite Hk; ring). lia.
Qed.

(** ** Statements for PropsAttr.v and PropsFile.v *)
Lemma raw_iteration f : bytes_ok (f_data f) -> 22 <= zlen (f_data f) ->
  exists start offs clean e, raw_start f = Ok start /\ start = field 2 (f_data f) 20 /\ attr_walk (f_data f) start offs clean /\
    16 * zlen offs <= zlen (f_data f) /\ Forall (fun o => start <= o /\ attr_fits (f_data f) o) offs /\
    forall n, iterate (raw_next f) (length offs + n) start =
      map (fun o => Some (Ok (mkAttr f o None))) offs ++ repeat (if clean : bool then None else Some (Err e)) n.
Proof.
  intros Hb Hl. pose proof (field2_bound (f_data f) 20 Hb) as Hs.
  destruct (walk_total f (field 2 (f_data f) 20) ltac:(lia)) as (offs & clean & W).
  destruct (walk_iterate f _ _ _ W ltac:(lia)) as (e & He).
  destruct (walk_length f _ _ _ W ltac:(lia)) as (H1 & H2).
  exists (field 2 (f_data f) 20), offs, clean, e. unfold raw_start, f_first_attribute_offset, rd_u16. rewrite rd_in by lia.
  split; auto. split; auto. split; auto. split; auto. destruct H2 as [->|H2]; [change (zlen (@nil Z)) with 0; lia|lia].
Qed.

Lemma lookup_first f ty name inst offs clean : bytes_ok (f_data f) -> 22 <= zlen (f_data f) ->
  attr_walk (f_data f) (field 2 (f_data f) 20) offs clean ->
  match find_resident_attribute f ty name inst with
  | Ok a => exists l1 o l2, offs = l1 ++ o :: l2 /\ a = mkAttr f o None /\ is_match (f_data f) ty name inst o /\
              Forall (is_other (f_data f) ty name inst) l1
  | Err e => (e = EAttributeNotFound (f_position f) ty /\ clean = true /\ Forall (is_other (f_data f) ty name inst) offs) \/
             (clean = false /\ Forall (is_other (f_data f) ty name inst) offs) \/
             (exists l1 o l2, offs = l1 ++ o :: l2 /\ Forall (is_other (f_data f) ty name inst) l1 /\ is_malformed (f_data f) ty name inst o)
  | _ => False
  end.
Proof.
  intros Hb Hl W. unfold find_resident_attribute, raw_start, f_first_attribute_offset, rd_u16. rewrite rd_in by lia. cbn [rbind].
  pose proof (field2_bound (f_data f) 20 Hb) as Hs. destruct (walk_length f _ _ _ W ltac:(lia)) as (_ & Hlen).
  apply (find_loop_spec f Hb _ _ _ ty name inst W ltac:(lia)).
  destruct Hlen as [->|Hlen]; [cbn; lia|]. unfold zlen in *. lia.
Qed.

Lemma ntfs_file_outcome img nt mp mdata l d n :
  bytes_ok img -> faultless d -> d_img d = img -> mft_position nt = Some mp -> 32 <= file_record_size nt <= U16_MAX ->
  mft_at img mp (file_record_size nt) mdata l -> valid_extents (cluster_size nt) img l -> 0 <= n <= U64_MAX ->
  let frs := file_record_size nt in
  (U64_MAX < n * frs \/ disk_position (cluster_size nt) l (n * frs) = None -> snd (ntfs_file nt n d) = Err (EInvalidFileRecordNumber n)) /\
  (forall p, n * frs <= U64_MAX -> disk_position (cluster_size nt) l (n * frs) = Some p ->
     let prot := slice img p (p + frs) in
     (zlen img < p + frs -> snd (ntfs_file nt n d) = Err (EIo UnexpectedEof)) /\
     (p + frs <= zlen img -> returns (snd (ntfs_file nt n d)) /\
        (array_clear (field 2 prot 4) (field 2 prot 6 - 1) -> forall f, snd (ntfs_file nt n d) = Ok f <->
           exists data, f = mkFile (mkRecord data (Some p)) n /\ stored_as data prot /\ file_record_ok data))).
Proof.
  intros Hb Hf Hi Hmp Hfr Hm Hv Hn frs. destruct (ntfs_file_spec img nt mp mdata l d n Hb Hf Hi Hmp Hfr Hm Hv Hn) as (d' & _ & _ & E).
  rewrite E. cbn [snd]. fold frs. split.
  - intros [Ho|Hp]; [replace (n * frs <=? U64_MAX) with false by lia; auto|]. rewrite Hp. destruct (n * frs <=? U64_MAX); auto.
  - intros p Ho Hp. replace (n * frs <=? U64_MAX) with true by lia. rewrite Hp.
    assert (Hp0 : 0 <= p).
    { assert (0 <= n * frs) by (unfold frs; nia). destruct Hv as [Hcs _ Hfit _ _]. clear - Hp Hcs Hfit H. revert Hp H. generalize (n * frs).
      induction l as [|e t IH]; intros z; cbn [disk_position]; [discriminate|]. inversion Hfit as [|? ? (A1 & A2 & A3) Hfit']; subst.
      destruct (z <? _) eqn:Ez; [|intros; eapply IH; eauto; lia]. destruct (e_lcn e); [|discriminate]. intros [= <-] ?. nia. }
    cbn zeta. split.
    + intros H. replace (p + frs <=? zlen img) with false by lia. auto.
    + intros H. replace (p + frs <=? zlen img) with true by lia. assert (Hl : zlen (slice img p (p + frs)) = frs) by (rewrite slice_len; unfold frs in *; lia).
      split; [apply file_of_bytes_returns; [now apply bytes_ok_slice|unfold frs in *; lia]|].
      intros Hc f. apply file_of_bytes_spec; auto; [now apply bytes_ok_slice|unfold frs in *; lia].
Qed.

Lemma ntfs_file_one_extent img nt mp mdata l d n data :
  bytes_ok img -> faultless d -> d_img d = img -> mft_position nt = Some mp -> 32 <= file_record_size nt <= U16_MAX ->
  mft_at img mp (file_record_size nt) mdata l -> valid_extents (cluster_size nt) img l -> 0 <= n <= U64_MAX ->
  let frs := file_record_size nt in let content := concat (map (extent_bytes (cluster_size nt) img) l) in
  let prot := slice content (n * frs) (n * frs + frs) in
  n * frs <= U64_MAX -> (in_one_extent (cluster_size nt) l (n * frs) (n * frs + frs) \/
    (frs | cluster_size nt) /\ disk_position (cluster_size nt) l (n * frs) <> None) ->
  array_clear (field 2 prot 4) (field 2 prot 6 - 1) -> stored_as data prot -> file_record_ok data ->
  exists p, snd (ntfs_file nt n d) = Ok (mkFile (mkRecord data (Some p)) n) /\ disk_position (cluster_size nt) l (n * frs) = Some p.
Proof.
  intros Hb Hf Hi Hmp Hfr Hm Hv Hn frs content prot Ho Hone Hcl Hst Hok.
  assert (H1 : in_one_extent (cluster_size nt) l (n * frs) (n * frs + frs)).
  { destruct Hone as [H|(H1 & H2)]; auto. apply aligned_one_extent; auto; try (apply Hv); unfold frs; lia. }
  destruct (one_extent_slice _ _ _ _ _ Hv H1) as (p & Hp & Hp0 & Hpl & Hs & _). { unfold frs; nia. }
  replace (n * frs + frs - n * frs) with frs in * by lia. exists p. split; auto.
  destruct (ntfs_file_outcome img nt mp mdata l d n Hb Hf Hi Hmp Hfr Hm Hv Hn) as (_ & H). fold frs in H.
  destruct (H p Ho Hp) as (_ & H2). destruct (H2 ltac:(lia)) as (_ & H3). rewrite Hs in H3. fold content prot in H3. apply H3; auto.
  exists data. auto.
Qed.

Lemma utf16_fun bs : forall a b, utf16 bs a -> utf16 bs b -> a = b.
Proof.
  induction bs as [bs IH] using (well_founded_induction (well_founded_ltof _ (@length Z))). intros a b Ha Hb.
  inversion Ha; subst; inversion Hb; subst; auto. f_equal. eapply IH; [|eassumption|eassumption]. unfold ltof; cbn; lia.
Qed.
Lemma attr_name_fun data off a b : attr_name_at data off a -> attr_name_at data off b -> a = b.
Proof. unfold attr_name_at. intros [(H1 & ->)|(H1 & H2 & H3 & ->)] [(K1 & ->)|(K1 & K2 & K3 & ->)]; auto; lia. Qed.

Lemma cases_exclusive data ty name inst off :
  ~ (is_match data ty name inst off /\ is_other data ty name inst off) /\ ~ (is_other data ty name inst off /\ is_malformed data ty name inst off).
Proof.
  split.
  - intros ((H1 & H2 & H3) & _ & [K|[(i & -> & K)|(n & bs & -> & K1 & K2)]]); [auto|apply K; auto|].
    destruct (H3 n eq_refl) as (bs' & H4 & H5). rewrite (attr_name_fun _ _ _ _ H4 K1) in H5. auto.
  - intros ((H0 & [K|[(i & -> & K)|(n & bs & -> & K1 & K2)]]) & [M|(M1 & M2 & M3 & M4)]); auto. eapply M4; eauto.
Qed.

Lemma resident_position f o e v p q : bytes_ok (f_data f) -> f_position f = Some p -> 0 < p ->
  0 <= o -> attr_fits (f_data f) o -> o + 22 <= zlen (f_data f) -> p + zlen (f_data f) <= U64_MAX ->
  attr_resident_value (mkAttr f o e) = Ok v -> 0 <= q <= zlen (rv_data v) ->
  let vo := field 2 (f_data f) (o + 20) in
  res_data_position (mkResv (rv_data v) (rv_position v) q) = Some (p + (o + vo + q) - vo) /\
  (q < zlen (rv_data v) -> byte_at (rv_data v) q = byte_at (f_data f) (o + vo + q)).
Proof.
  intros Hb Hp Hp0 Ho Hf H22 Hmax Hv Hq vo. pose proof Hf as (F1 & F2 & F3).
  pose proof (field2_bound (f_data f) (o + 20) Hb) as Hvo. pose proof (field4_bound (f_data f) (o + 16) Hb) as Hvl. fold vo in Hvo.
  destruct (attr_resident_value_spec f Hb o e Ho Hf H22) as [(bs & E & K & Hbs)|(x & E & _)]; rewrite Hv in E; [|discriminate].
  fold vo in K, Hbs. injection E as ->. cbn [res_new rv_data rv_position] in *.
  assert (Hl : zlen bs = field 4 (f_data f) (o + 16)) by (rewrite Hbs, slice_len; lia).
  rewrite Hp. unfold res_data_position, res_len. cbn [rv_sp rv_data rv_position]. replace (q <=? zlen bs) with true by lia.
  cbn [pos_add]. unfold pos_new. unfold TWO64, U64_MAX in *. rewrite (Z.mod_small (p + o)) by lia. replace (p + o =? 0) with false by lia.
  cbn [pos_add]. unfold pos_new, TWO64. rewrite Z.mod_small by lia. replace (p + o + q =? 0) with false by lia.
  split; [f_equal; lia|]. intros Hlt. rewrite Hbs. rewrite byte_at_slice by lia. reflexivity.
Qed.
