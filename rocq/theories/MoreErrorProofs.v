(** * Proofs for C62: the errors of attribute lists and of index allocations. *)
From Coq Require Import Lia.
From Verif Require Import Base Dev Types Record DataRuns Stream NonResident Resident Attribute File Structured AttrList Index
  Spec SpecMisc SpecValues SpecIndex SpecAttrList SpecErrors BaseProofs DevProofs DataRunsProofs ReaderProofs RecordProofs StreamProofs NonResidentProofs AttributeProofs FileProofs
  StructuredProofs ValueProofs AttrListProofs MiscProofs NodeProofs IndexRecordProofs IndexProofs DirectoryProofs AttrListIterProofs RecordsProofs ErrorProofs.

(** ** Attribute lists *)
Lemma le_error_message bs o p : ~ list_entry_fits bs o -> list_entry_message bs o p (exchanged (le_error bs o p)).
Proof.
  intros Hf. unfold list_entry_fits, lentry_name_bytes, lentry_len in Hf. unfold le_error, lentry_len, lentry_name_bytes.
  destruct (zlen bs <? o + 26) eqn:E1; [split; [reflexivity|lia]|].
  destruct (field 2 bs (o + 4) <? _) eqn:E2; [unfold TY_AttributeList; repeat apply conj; (reflexivity || lia)|split; [reflexivity|lia]].
Qed.
Lemma le_ty_message bs o e x : list_entry_fits bs o -> decodes_list_entry bs o e -> bytes_ok bs -> le_ty e = Err x -> list_entry_message bs o (le_position e) x.
Proof.
  intros Hf D Hb. unfold le_ty. destruct (known_type _) eqn:K; [discriminate|]. intros [= <-]. cbn [list_entry_message].
  unfold list_entry_fits, lentry_name_bytes in Hf. pose proof (field1_bound bs (o + 6) Hb). split; [reflexivity|]. split; [lia|].
  rewrite (dle_type _ _ _ D) in *. split; [reflexivity|].
  intros T. apply known_type_spec in T. congruence.
Qed.

Section Res.
  Context (bs : list Z) (p : position) (Hb : bytes_ok bs) (Hl : zlen bs <= U64_MAX) (Hp : position_sane p (zlen bs)).
  Lemma resident_error_at o d x : 0 <= o < zlen bs -> ~ list_entry_fits bs o ->
    snd (snd (alist_next (ALResident (zdrop o bs) (pos_add p o)) d)) = Some (Err x) -> x = le_error bs o (pos_add p o).
  Proof.
    intros Ho Hf Hx. assert (Hbd : bytes_ok (zdrop o bs)) by now apply bytes_ok_zdrop.
    assert (Hld : zlen (zdrop o bs) <= U64_MAX) by (rewrite zlen_zdrop; lia).
    destruct (le_new_at cursor_exact _ _ _ Hbd (cursor_reads_any (zdrop o bs) (pos_add p o) Hld) 0 (pos_add p o) (res_new (zdrop o bs) (pos_add p o)) no_dev)
      as (s' & d' & r & E & _ & C).
    { split; [|reflexivity]. split; [reflexivity|]. split; [reflexivity|]. cbn [rv_sp res_new]. unfold U64_MAX. lia. }
    { exact Logic.I. }
    { pose proof (zlen_nonneg (zdrop o bs)). lia. }
    destruct (zdrop_cons bs o Ho) as (b & t & Eb). unfold alist_next in Hx. rewrite Eb in Hx. rewrite Eb in E. rewrite E in Hx. cbn [fst snd] in Hx.
    rewrite fits_zdrop in C by lia. destruct C as [(? & _)|(_ & ->)]; [tauto|]. cbn [snd] in Hx. injection Hx as <-.
    unfold le_error, lentry_len, lentry_name_bytes. rewrite !field_zdrop, zlen_zdrop by lia. rewrite !Z.add_0_l.
    replace (Z.max 0 (zlen bs - Z.max 0 o) <? 26) with (zlen bs <? o + 26) by lia. reflexivity.
  Qed.
  Lemma resident_errors n : forall o d x, 0 <= o <= zlen bs -> In (Some (Err x)) (iterate (with_dev alist_next) n (ALResident (zdrop o bs) (pos_add p o), d)) ->
    exists offs, list_walk bs o offs ListMalformed /\ let w := list_walk_end bs o offs in ~ list_entry_fits bs w /\ x = le_error bs w (pos_add p w).
  Proof.
    induction n as [|n IH]; intros o d x Ho Hin; [destruct Hin|].
    destruct (Z.eq_dec o (zlen bs)) as [He|He].
    { rewrite zdrop_all in Hin by lia. rewrite (iterate_fixed (with_dev alist_next) _ None) in Hin by reflexivity. apply repeat_spec in Hin. discriminate. }
    cbn [iterate] in Hin. unfold with_dev at 1 in Hin. cbn [fst snd] in Hin.
    destruct (alist_next_resident bs p Hb Hl Hp o d ltac:(lia)) as (H1 & H2). destruct (list_entry_fits_dec bs o) as [Hf|Hf].
    - destruct (H1 Hf) as (e & _ & _ & K1 & K2). destruct (Z_le_gt_dec (o + lentry_len bs o) (zlen bs)) as [Hle|Hgt].
      + rewrite (K1 Hle) in Hin. destruct Hin as [Hin|Hin]; [discriminate|].
        pose proof (field2_bound bs (o + 4) Hb) as B2. fold (lentry_len bs o) in B2.
        destruct (IH (o + lentry_len bs o) _ _ ltac:(lia) Hin) as (offs & W & R). exists (o :: offs). split; [apply lw_entry; auto; lia|exact R].
      + rewrite (K2 ltac:(lia)) in Hin. destruct Hin as [Hin|Hin]; [discriminate|]. exact (IH _ _ _ Ho Hin).
    - destruct (H2 Hf) as (y & K). pose proof (resident_error_at o d y ltac:(lia) Hf) as Hy. rewrite K in Hin, Hy. specialize (Hy eq_refl).
      destruct Hin as [[= <-]|Hin]; [|exact (IH _ _ _ Ho Hin)]. exists []. split; [apply lw_malformed; auto; lia|]. split; auto.
  Qed.
End Res.

Lemma list_errors_resident bs p d n x : bytes_ok bs -> zlen bs <= U64_MAX -> position_sane p (zlen bs) ->
  In (Some (Err x)) (iterate (with_dev alist_next) n (alist_of_sval (SVRes (res_new bs p)), d)) ->
  exists offs, list_walk bs 0 offs ListMalformed /\ let o := list_walk_end bs 0 offs in list_entry_message bs o (pos_add p o) (exchanged x).
Proof.
  intros Hb Hl Hp. pose proof (zlen_nonneg bs).
  assert (E : alist_of_sval (SVRes (res_new bs p)) = ALResident (zdrop 0 bs) (pos_add p 0)).
  { cbn [alist_of_sval res_new rv_data]. rewrite zdrop_0 by lia. f_equal. unfold res_data_position, res_new, res_len. cbn [rv_sp rv_data rv_position].
    replace (0 <=? zlen bs) with true by lia. reflexivity. }
  rewrite E. intros Hin. destruct (resident_errors bs p Hb Hl Hp n 0 d x ltac:(lia) Hin) as (offs & W & Hf & ->). exists offs. split; auto. now apply le_error_message.
Qed.

Section NonRes.
  Context (cs : Z) (img : list Z) (l : list extent) (enc : list Z) (p : position) (size : Z).
  Context (Hv : valid_extents cs img l) (He : encodes 0 l enc) (Hsize : 0 <= size <= extents_size cs l) (Hmax : size + U16_MAX <= U64_MAX).
  Notation bs := (file_content cs img l size).
  Context (Hb : bytes_ok bs).

  Lemma nonresident_errors n : forall o v d x, 0 <= o -> nr_at cs l enc p size o v -> good img true d ->
    In (Some (Err x)) (iterate (with_dev alist_next) n (ALNonResident v, d)) ->
    exists offs, list_walk bs o offs ListMalformed /\ let w := list_walk_end bs o offs in ~ list_entry_fits bs w /\ x = le_error bs w (disk_position cs l w).
  Proof.
    pose proof (content_size cs img l size Hv Hsize) as Hcs.
    induction n as [|n IH]; intros o v d x Ho Ha Hg Hin; [destruct Hin|].
    destruct (alist_next_nonres cs img l enc p size Hv He Hsize Hmax Hb o v d Ha Hg Ho) as (H1 & H2 & H3).
    destruct (Z_le_gt_dec size o) as [Hge|Hlt].
    { assert (K : forall m, iterate (with_dev alist_next) m (ALNonResident v, d) = repeat None m).
      { intros m. apply iterate_fixed. unfold with_dev. cbn [fst snd]. now rewrite (H1 Hge). }
      rewrite K in Hin. apply repeat_spec in Hin. discriminate. }
    cbn [iterate] in Hin. unfold with_dev at 1 in Hin. cbn [fst snd] in Hin. destruct (list_entry_fits_dec bs o) as [Hf|Hf].
    - destruct (H2 ltac:(lia) Hf) as (e & d' & v' & _ & _ & K & G & A). rewrite K in Hin. destruct Hin as [Hin|Hin]; [discriminate|].
      pose proof (field2_bound bs (o + 4) Hb) as B2. fold (lentry_len bs o) in B2.
      destruct (Z_le_gt_dec (o + lentry_len bs o) (zlen bs)) as [Hle|Hgt].
      + destruct (IH (o + lentry_len bs o) _ _ _ ltac:(lia) A G Hin) as (offs & W & R). exists (o :: offs). split; [apply lw_entry; auto; lia|exact R].
      + exfalso. rewrite (nonres_end cs l enc p size _ _ A) in Hin by lia. apply repeat_spec in Hin. discriminate.
    - destruct (H3 ltac:(lia) Hf) as (d' & K & G). rewrite K in Hin. destruct Hin as [[= <-]|Hin]; [|exact (IH _ _ _ _ Ho Ha G Hin)].
      exists []. split; [apply lw_malformed; auto; lia|]. split; auto.
  Qed.

  Lemma list_errors_nonresident v d n x : nr_new cs enc p size = Ok v -> faultless d -> d_img d = img ->
    In (Some (Err x)) (iterate (with_dev alist_next) n (alist_of_sval (SVNr v), d)) ->
    exists offs, list_walk bs 0 offs ListMalformed /\ let o := list_walk_end bs 0 offs in list_entry_message bs o (disk_position cs l o) (exchanged x).
  Proof.
    intros Hn Hf Hi Hin. assert (HU : 0 <= size <= U64_MAX) by (unfold U16_MAX in *; lia).
    destruct (nonresident_errors n 0 v d x ltac:(lia)) as (offs & W & Hnf & ->); auto.
    { destruct (nr_extents_new cs img l enc p size Hv He) as (v0 & E0 & I0 & P0 & _). assert (v0 = v) by congruence. subst v0. split; auto. split; auto.
      intros _. eapply nr_fresh_position; eauto. }
    { split; auto. }
    exists offs. split; auto. now apply le_error_message.
  Qed.
End NonRes.

(** ** Index allocations *)
Lemma irec_of_bytes_fields data p r : bytes_ok data -> 36 <= zlen data <= U16_MAX -> irec_of_bytes data p = Ok r ->
  zlen (rec_data r) = zlen data /\ field 8 (rec_data r) 16 = field 8 data 16.
Proof.
  intros Hb Hl. unfold irec_of_bytes. destruct (irec_validate_signature _) as [[]|e| |]; cbn [rbind]; try discriminate.
  destruct (fixup _) as [r' [[]|x| |]] eqn:Ef; try discriminate. destruct (fixup_fields _ _ _ Hb ltac:(lia) Ef) as (_ & E2 & E3).
  destruct (irec_validate_sizes r') as [[]|e| |]; cbn [rbind]; try discriminate. intros [= <-]. split; auto. apply E3; lia.
Qed.
Lemma to_i64_bytes bs : bytes_ok bs -> zlen bs = 8 -> signed_bytes bs (to_i64 (le_val bs)).
Proof.
  intros Hb Hl. split; auto. split; [lia|]. rewrite Hl. pose proof (le_val_bound bs Hb) as B. rewrite Hl in B.
  pose proof (le_val_nonneg bs Hb). destruct (to_i64_signed (le_val bs)) as (B1 & B2); [change (2 ^ 64) with (256 ^ 8); lia|]. split; [|symmetry; exact B2]. change (256 ^ 8 / 2) with (2 ^ 63). exact B1.
Qed.

Definition record_kind {A} (r : res A) : Prop :=
  match r with Err (EVcnTooBig _ | EVcnOutOfBoundsInIndexAllocation _ _ | EVcnMismatchInIndexAllocation _ _ _ | EIo _) => False | _ => True end.
Lemma record_kind_bind {A B} (r : res A) (k : A -> res B) : record_kind r -> (forall a, record_kind (k a)) -> record_kind (rbind r k).
Proof. destruct r; cbn; auto. Qed.
Lemma fixup_loop_kind n : forall usn p a s data, record_kind (snd (fixup_loop n usn p a s data)).
Proof.
  induction n as [|n IH]; intros; [exact Logic.I|]. cbn [fixup_loop].
  repeat match goal with |- context [match ?x with _ => _ end] => destruct x eqn:? end; cbn [snd]; try exact Logic.I; auto.
Qed.
Lemma fixup_kind r : record_kind (snd (fixup r)).
Proof.
  unfold fixup. match goal with |- context [match ?x with Ok _ => _ | Err e => _ | Panic => _ | OutOfFuel => _ end] => assert (K : record_kind x); [|destruct x as [[[usn count] start]|e| |]; auto] end.
  - unfold update_sequence_number, update_sequence_array_count, update_sequence_array_start, update_sequence_offset, update_sequence_size,
      rd_u16, rd, get_range, idx_range.
    repeat (apply record_kind_bind; [|intros ?] || match goal with |- context [if ?x then _ else _] => destruct x end); try exact Logic.I.
    all: repeat match goal with |- context [match ?x with _ => _ end] => destruct x eqn:? end; exact Logic.I.
  - destruct (fixup_loop _ _ _ _ _ _) as [data out] eqn:E. cbn [snd]. pose proof (fixup_loop_kind (Z.to_nat count) usn (rec_position r) start (NTFS_BLOCK_SIZE - 2) (rec_data r)) as J. now rewrite E in J.
Qed.
Lemma irec_of_bytes_kind data p : record_kind (irec_of_bytes data p).
Proof.
  unfold irec_of_bytes. apply record_kind_bind.
  - unfold irec_validate_signature, rec_signature. apply record_kind_bind; [|intros s; destruct (list_eqb _ _); exact Logic.I].
    unfold idx_range, get_range. repeat match goal with |- context [match ?x with _ => _ end] => destruct x eqn:? end; exact Logic.I.
  - intros _. pose proof (fixup_kind (mkRecord data p)) as J. destruct (fixup _) as [r' [u|e| |]]; auto. cbn [snd] in J.
    apply record_kind_bind; [|intros; exact Logic.I]. unfold irec_validate_sizes, irec_allocated_size, irec_data_size, rd_u32, rd, get_range, idx_range.
    repeat match goal with |- context [match ?x with _ => _ end] => destruct x eqn:?; cbn [rbind] end; exact Logic.I.
Qed.

Lemma allocation_errors nt img f o l size vcn fuel d : bytes_ok img -> bytes_ok (f_data f) -> 0 <= o -> attr_fits (f_data f) o ->
  ~ attr_resident_at (f_data f) o -> o + 56 <= zlen (f_data f) -> field 2 (f_data f) (o + 32) <= attr_len_at (f_data f) o ->
  valid_extents (cluster_size nt) img l -> encodes 0 l (slice (f_data f) (o + field 2 (f_data f) (o + 32)) (o + attr_len_at (f_data f) o)) ->
  field 8 (f_data f) (o + 48) <= extents_size (cluster_size nt) l -> 0 < field 8 (f_data f) (o + 48) -> 40 <= size <= U16_MAX -> faultless d -> d_img d = img ->
  let alloc := file_content (cluster_size nt) img l (field 8 (f_data f) (o + 48)) in
  let p := disk_position (cluster_size nt) l 0 in let rp := disk_position (cluster_size nt) l (vcn * cluster_size nt) in
  (forall x, rp = Some x -> 0 < x /\ x + size <= TWO64) ->
  forall v d' e, attr_value nt (mkAttr f o None) d = (d, Ok v) -> record_from_vcn fuel nt v size vcn d = (d', Err e) ->
  allocation_message (cluster_size nt) (ntfs_size nt) size alloc p rp vcn e \/ allocation_misleading (cluster_size nt) (ntfs_size nt) size alloc p rp vcn e.
Proof.
  intros Hib Hb Ho Hf Hnr H56 Hro Hv He Hs Hs0 Hsize Hfa Hd alloc p0 rp Hrp v d' e Ev Er. pose proof (field8_bound (f_data f) (o + 48) Hb) as Hsz.
  unfold alloc, p0 in *. clear alloc p0.
  set (len := field 8 (f_data f) (o + 48)) in *. set (enc := slice (f_data f) _ _) in *. set (p := pos_add (f_position f) (o + field 2 (f_data f) (o + 32))) in *.
  destruct (nr_extents_new (cluster_size nt) img l enc p len Hv He) as (n & E & Hi & Hp & Hin & _).
  pose proof (nr_fresh_position (cluster_size nt) img l enc p len Hv He Hsz n E) as Hpos.
  pose proof (content_size (cluster_size nt) img l len Hv ltac:(lia)) as Hz.
  unfold attr_value in Ev. cbn [at_entries] in Ev. unfold mbind, mlift, mret in Ev. rewrite (attr_value_extents f (cluster_size nt) o None Hb Ho Hf H56 Hnr Hro) in Ev.
  fold enc p len in Ev. rewrite E in Ev. cbn [rbind] in Ev. injection Ev as <-.
  unfold record_from_vcn, vcn_offset in Er. set (q := vcn * cluster_size nt) in *.
  destruct ((I64_MIN <=? q) && (q <=? I64_MAX)) eqn:E0.
  2: { injection Er as <- <-. left. cbn [allocation_message]. fold q. split; [reflexivity|]. lia. }
  unfold mbind, mlift at 1 in Er. cbn [av_seek sv_seek] in Er.
  destruct (Z_lt_le_dec q 0) as [Hq|Hq0].
  { destruct (rf_seek _ _ _ _ _ _ _ (nr_extents_refines (cluster_size nt) img l enc p len Hv He Hsz) n d (SCurrent q) Hi (conj Hd (fun _ => Hfa))) as (d1 & v1 & _ & _ & [(H & _)|(_ & H & _)]);
    cbn [seek_target] in *; [cbn; unfold I64_MIN, I64_MAX in *; lia|lia|]. rewrite H in Er. injection Er as <- <-. left. cbn [allocation_message]. fold q. left. split; [reflexivity|lia]. }
  change (av_data_position (AVSimple (SVNr n))) with (nr_data_position n) in Er. rewrite Hpos in Er.
  destruct (Z_le_gt_dec len q) as [Hge|Hlt].
  { destruct (rf_seek _ _ _ _ _ _ _ (nr_extents_refines (cluster_size nt) img l enc p len Hv He Hsz) n d (SCurrent q) Hi (conj Hd (fun _ => Hfa))) as (d1 & v1 & _ & I1 & [(_ & H & Hp1)|(H0 & H & _)]);
    cbn [seek_target] in *; [cbn; unfold I64_MIN, I64_MAX in *; lia| |unfold U64_MAX, I64_MAX in *; lia].
    rewrite H in Er. assert (Hl : nr_len v1 = len) by (destruct I1 as (rest & I1); apply (inv_size _ _ _ _ _ _ I1)).
    change (av_stream_position (AVSimple (SVNr v1))) with (nr_stream_position v1) in Er. change (av_len (AVSimple (SVNr v1))) with (nr_len v1) in Er.
    rewrite Hl, Hp1, Hp in Er. replace (len <=? 0 + q) with true in Er by lia. injection Er as <- <-.
    cbn [allocation_message allocation_misleading]. fold q. rewrite Hz. destruct (Z_le_gt_dec (ntfs_size nt) q); [left|right]; repeat split; auto; lia. }
  destruct (stands_seek (cluster_size nt) img l enc p len Hv He ltac:(lia) ltac:(lia) 0 n d q ltac:(lia) ltac:(lia) ltac:(lia)) as (d1 & v1 & H & St & G1).
  { split; auto. } { split; auto. }
  rewrite H in Er. destruct St as (I1 & Hp1 & Hd1 & In1). assert (Hl : nr_len v1 = len) by (destruct I1 as (rest & I1); apply (inv_size _ _ _ _ _ _ I1)).
  change (av_stream_position (AVSimple (SVNr v1))) with (nr_stream_position v1) in Er. change (av_len (AVSimple (SVNr v1))) with (nr_len v1) in Er.
  rewrite Hl, Hp1 in Er. replace (len <=? 0 + q) with false in Er by lia. replace (0 + q) with q in * by lia.
  destruct (irec_step (cluster_size nt) img l enc p len size Hv He ltac:(lia) ltac:(lia) ltac:(lia) fuel q v1 d1 ltac:(lia)) as (d2 & _ & En); [split; auto|exact G1|].
  rewrite En in Er. fold rp in En, Er.
  destruct (q + size <=? len) eqn:Ein.
  2: { injection Er as <- <-. left. cbn [allocation_message]. fold q. rewrite Hz. right. split; [reflexivity|lia]. }
  set (alloc := file_content _ _ _ _) in *. assert (Hab : bytes_ok alloc) by (now apply bytes_ok_content).
  set (prot := slice alloc q (q + size)) in *. assert (Hpb : bytes_ok prot) by (now apply bytes_ok_slice). assert (Hpl : zlen prot = size) by (unfold prot; rewrite slice_len; lia).
  destruct (irec_of_bytes prot rp) as [r|x| |] eqn:Ex; try discriminate.
  - destruct (irec_of_bytes_fields _ _ _ Hpb ltac:(lia) Ex) as (F1 & F2). unfold irec_vcn, rd_u64 in Er. rewrite rd_in in Er by lia. cbn [rbind] in Er.
    unfold mlift, mret in Er. destruct (_ =? vcn) eqn:Ev; [discriminate|]. injection Er as <- <-. left. cbn [allocation_message]. fold q.
    split; [reflexivity|]. split; [reflexivity|]. split; [lia|]. split; [lia|]. rewrite F2 in *. unfold prot in *. rewrite field_slice in * by lia.
    unfold field in *. replace (q + 16 + 8) with (q + 24) in * by lia. split; [|lia]. apply to_i64_bytes; [now apply bytes_ok_slice|rewrite slice_len; lia].
  - assert (x = e) by congruence. subst x.
    assert (K : (forall x, rp = Some x -> index_record_message prot x e) \/
      (forall x, rp = Some x -> (index_record_message prot x (exchanged e) /\ exchanged e <> e) \/ record_misleading prot x e)).
    { destruct rp as [x|] eqn:Erp; [|left; intros ? [=]]. destruct (Hrp x eq_refl) as (B1 & B2).
      destruct (index_record_error prot x e Hpb ltac:(lia) B1 ltac:(lia) Ex) as [(K & _)|K]; [left|right]; intros ? [= <-]; auto. }
    pose proof (irec_of_bytes_kind prot rp) as Kd. rewrite Ex in Kd.
    destruct K as [K|K]; [left|right]; destruct e; try contradiction Kd; cbn [allocation_message allocation_misleading]; fold q; (split; [lia|]; split; [lia|exact K]).
Qed.
