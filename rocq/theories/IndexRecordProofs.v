(** * Index records. *)
From Verif Require Import Base Dev Types Record DataRuns Stream NonResident Resident Attribute File Structured AttrList Upcase Index
  Spec SpecValues SpecIndex BaseProofs DevProofs RecordProofs StreamProofs ReaderProofs ResidentProofs NonResidentProofs AttributeProofs FileProofs StructuredProofs
  ValueProofs NodeProofs.

Lemma to_i64_small x v : 0 <= x <= U64_MAX -> 0 <= v <= I64_MAX -> to_i64 x = v <-> x = v.
Proof. unfold to_i64, U64_MAX, I64_MAX, TWO64. intros. destruct (x <=? _) eqn:E; lia. Qed.

Lemma irec_sizes_spec data p : 36 <= zlen data <= U16_MAX ->
  (irec_validate_sizes (mkRecord data p) = Ok tt <-> 24 + field 4 data 32 <= zlen data /\ field 4 data 28 <= field 4 data 32) /\
  (24 + field 4 data 32 <= U32_MAX -> 24 + field 4 data 28 <= U32_MAX -> returns (irec_validate_sizes (mkRecord data p))).
Proof.
  intros Hld. unfold irec_validate_sizes, irec_allocated_size, irec_data_size, rd_u32. cbn [rec_data rec_position].
  rewrite !rd_in by lia. cbn [rbind]. unfold U16_MAX, U32_MAX in *.
  destruct (4294967295 <? 24 + field 4 data 32) eqn:E1; [split; [split; [discriminate|lia]|lia]|].
  destruct (zlen data <? 24 + field 4 data 32) eqn:E2; [split; [split; [discriminate|lia]|intros; exact Logic.I]|].
  destruct (4294967295 <? 24 + field 4 data 28) eqn:E3; [split; [split; [discriminate|lia]|lia]|].
  destruct (24 + field 4 data 32 <? 24 + field 4 data 28) eqn:E4; (split; [split; try discriminate; auto; lia|intros; exact Logic.I]).
Qed.

Lemma irec_of_bytes_spec prot p : bytes_ok prot -> 36 <= zlen prot <= U16_MAX -> array_clear (field 2 prot 4) (field 2 prot 6 - 1) ->
  forall r, irec_of_bytes prot p = Ok r <-> exists data, r = mkRecord data p /\ stored_as data prot /\ index_record_ok data.
Proof.
  intros Hb Hl Hc r. unfold irec_of_bytes, irec_validate_signature, rec_signature. cbn [rec_data rec_position]. unfold idx_range.
  rewrite get_range_in by lia. cbn [rbind].
  destruct (fixup (mkRecord prot p)) as [r' out] eqn:Ef.
  destruct (fixup_exact prot p r' out Hb ltac:(lia) Ef) as (H1 & H2 & _). cbn zeta in *.
  destruct (fixup_spec prot p Hb ltac:(lia)) as (data' & out' & E' & _). rewrite Ef in E'. injection E' as -> <-. cbn [rec_data] in *.
  assert (Hst : out = Ok tt -> stored_as data' prot).
  { intros Ho. destruct (H2 Ho) as (K1 & K2 & K3). destruct (proj1 H1 Ho) as (K4 & K5). split; auto. }
  assert (Hval : out = Ok tt -> irec_validate_sizes (mkRecord data' p) = Ok tt <->
     (24 + field 4 data' 32 <= zlen data' /\ field 4 data' 28 <= field 4 data' 32)).
  { intros Ho. apply irec_sizes_spec. rewrite (st_len _ _ (Hst Ho)); auto. }
  split.
  - destruct (list_eqb _ _) eqn:Es; cbn [rbind]; [|discriminate]. apply list_eqb_eq in Es.
    destruct out as [[]|e| |]; try discriminate. specialize (Hst eq_refl). specialize (Hval eq_refl).
    destruct (irec_validate_sizes _) as [[]|e| |] eqn:Ev; cbn [rbind]; try discriminate. intros [= <-].
    exists data'. split; auto. split; auto. destruct (proj1 Hval eq_refl). split; auto. now rewrite (stored_signature _ _ Hst).
  - intros (data & -> & Hs & Hok1 & Hok2 & Hok3).
    assert (Ho : out = Ok tt) by (apply H1; split; [apply Hs|intros; now apply (st_marked _ _ Hs)]). subst out.
    assert (data' = data) by (eapply stored_unique; eauto). subst data'.
    rewrite (stored_signature _ _ Hs) in Hok1. rewrite Hok1. cbn [list_eqb Z.eqb Pos.eqb andb rbind].
    rewrite (proj2 (Hval eq_refl)) by lia. reflexivity.
Qed.

(** Size fields near 2^32 overflow; they lie in bytes 28-36, which the fixup does not change. *)
Lemma irec_of_bytes_returns prot p : bytes_ok prot -> 36 <= zlen prot <= U16_MAX ->
  24 + field 4 prot 32 <= U32_MAX -> 24 + field 4 prot 28 <= U32_MAX -> returns (irec_of_bytes prot p).
Proof.
  intros Hb Hl Ha Hu. unfold irec_of_bytes, irec_validate_signature, rec_signature. cbn [rec_data rec_position]. unfold idx_range.
  rewrite get_range_in by lia. cbn [rbind]. destruct (list_eqb _ _); cbn [rbind]; [|exact I].
  pose proof (fixup_outcome prot p Hb ltac:(lia)) as Ho.
  destruct (fixup (mkRecord prot p)) as [r' out] eqn:Ef. cbn [snd] in Ho.
  destruct (fixup_exact prot p r' out Hb ltac:(lia) Ef) as (H1 & H2 & _).
  destruct (fixup_spec prot p Hb ltac:(lia)) as (data' & out' & E' & Hl' & _). rewrite Ef in E'. injection E' as -> <-. cbn [rec_data] in *.
  destruct out as [[]|e| |]; try tauto; [|exact I]. destruct (H2 eq_refl) as (K1 & K2 & K3).
  assert (Hf : forall k, 0 <= k -> k + 4 <= 500 -> k + 4 <= zlen prot -> field 4 data' k = field 4 prot k).
  { intros k Hk Hk' Hz. unfold field. f_equal. apply slice_ext; try lia. intros i Hi. apply K2; [lia|]. intros (j & Hj & Hj'). unfold block_end in Hj'. lia. }
  destruct (irec_sizes_spec data' p ltac:(lia)) as (_ & Hr). rewrite !Hf in Hr by lia. specialize (Hr Ha Hu).
  destruct (irec_validate_sizes _) as [[]|e| |]; cbn [rbind]; auto.
Qed.

(** ** [record_from_vcn] for a value that behaves like a cursor over [alloc]. *)
Section Vcn.
  Context (nt : ntfs) (fuel : nat) (I : aval -> Prop) (good : dev -> Prop) (alloc : list Z) (size : Z).
  Context (R : refines (av_read fuel) (av_seek fuel) I av_stream_position good alloc (zlen alloc)) (Hlen : forall v, I v -> av_len v = zlen alloc)
    (Hb : bytes_ok alloc) (Hcs : 1 <= cluster_size nt) (Hsize : 36 <= size <= U16_MAX).

  Lemma record_from_vcn_spec v d vcn : I v -> av_stream_position v = 0 -> good d ->
    let q := vcn * cluster_size nt in
    exists d' r, good d' /\ record_from_vcn fuel nt v size vcn d = (d', r) /\
    (~ I64_MIN <= q <= I64_MAX -> r = Err (EVcnTooBig vcn)) /\
    (I64_MIN <= q < 0 -> r = Err (EIo InvalidInput)) /\
    (0 <= q <= I64_MAX -> zlen alloc <= q -> r = Err (EVcnOutOfBoundsInIndexAllocation (av_data_position v) vcn)) /\
    (0 <= q <= I64_MAX -> q < zlen alloc < q + size -> r = Err (EIo UnexpectedEof)) /\
    (0 <= q <= I64_MAX -> q + size <= zlen alloc -> exists p,
       r = (let? x := irec_of_bytes (slice alloc q (q + size)) p in let? n := irec_vcn x in
            if n =? vcn then Ok x else Err (EVcnMismatchInIndexAllocation (av_data_position v) vcn n))).
  Proof.
    intros Hi Hp Hg q. unfold record_from_vcn, vcn_offset. fold q.
    destruct ((I64_MIN <=? q) && (q <=? I64_MAX)) eqn:E0.
    2: { exists d. eexists. split; auto. split; [reflexivity|]. split; auto. repeat split; intros; exfalso; unfold I64_MIN, I64_MAX in *; lia. }
    unfold mbind, mlift at 1.
    destruct (rf_seek _ _ _ _ _ _ _ R v d (SCurrent q) Hi Hg) as (d1 & v1 & Hg1 & Hi1 & H). { cbn. unfold I64_MIN, I64_MAX in *. lia. }
    cbn [seek_target] in H. rewrite Hp in H. rewrite Z.add_0_l in H. destruct H as [(Hq & Es & Hp1)|(Hq & Es & ->)]; rewrite Es.
    2: { exists d1. eexists. split; auto. split; [reflexivity|]. assert (q < 0) by (unfold I64_MAX, U64_MAX in *; lia).
         repeat split; intros; try (exfalso; lia); auto. }
    rewrite (Hlen v1 Hi1), Hp1. destruct (zlen alloc <=? q) eqn:E1.
    { exists d1. eexists. split; auto. split; [reflexivity|]. repeat split; intros; try (exfalso; lia); auto. }
    unfold irec_new.
    destruct (refines_read_exact _ _ _ _ _ _ _ R v1 d1 size Hi1 Hg1 ltac:(lia)) as (d2 & v2 & Hi2 & Hg2 & [(Hle & Er & _)|[(Hlt & _ & Er)|(Hz & _)]]); [| |lia]; rewrite Er; rewrite Hp1 in *.
    - exists d2. eexists. split; auto. split; [|split; [|split; [|split; [|split; [|]]]]]; try (intros; exfalso; lia).
      2: { intros _ _. exists (av_data_position v1). unfold slice. replace (q + size - q) with size by lia. reflexivity. }
      unfold mlift, mret. unfold slice. replace (q + size - q) with size by lia.
      destruct (irec_of_bytes _ _) as [x|x| |]; cbn [rbind]; auto. destruct (irec_vcn x) as [n|y| |]; cbn [rbind]; auto. destruct (n =? vcn); auto.
    - exists d2. eexists. split; auto. split; [reflexivity|]. repeat split; intros; try (exfalso; lia); auto.
  Qed.

  Lemma record_from_vcn_ok v d vcn data : I v -> av_stream_position v = 0 -> good d -> vcn * cluster_size nt <= I64_MAX ->
    index_record_at (cluster_size nt) size alloc vcn data -> index_array_clear (cluster_size nt) size alloc vcn ->
    exists d' p, good d' /\ record_from_vcn fuel nt v size vcn d = (d', Ok (mkRecord data p)).
  Proof.
    intros Hi Hp Hg Hq [(Hq0 & Hin) Hst Hok Hvcn] Hcl. destruct (record_from_vcn_spec v d vcn Hi Hp Hg) as (d' & r & Hg' & E & _ & _ & _ & _ & H).
    destruct (H ltac:(lia) ltac:(lia)) as (p & ->). exists d', p. split; auto. rewrite E. f_equal.
    set (prot := slice alloc _ _) in *. assert (Hpl : zlen prot = size) by (unfold prot; rewrite slice_len; lia).
    assert (Hpb : bytes_ok prot) by now apply bytes_ok_slice.
    rewrite (proj2 (irec_of_bytes_spec prot p Hpb ltac:(lia) Hcl (mkRecord data p))) by (exists data; auto). cbn [rbind].
    unfold irec_vcn, rd_u64. cbn [rec_data]. pose proof (st_len _ _ Hst). rewrite rd_in by lia. cbn [rbind].
    pose proof (field8_bound data 16 (stored_bytes_ok _ _ Hpb Hst)). assert (Hv : 0 <= vcn <= I64_MAX) by nia.
    rewrite (proj2 (to_i64_small (field 8 data 16) vcn ltac:(lia) Hv)) by auto. now rewrite Z.eqb_refl.
  Qed.

  Lemma record_from_vcn_inv v d d' vcn r : I v -> av_stream_position v = 0 -> good d ->
    (0 <= vcn * cluster_size nt -> vcn * cluster_size nt + size <= zlen alloc -> index_array_clear (cluster_size nt) size alloc vcn) ->
    record_from_vcn fuel nt v size vcn d = (d', Ok r) ->
    good d' /\ vcn * cluster_size nt <= I64_MAX /\ index_record_at (cluster_size nt) size alloc vcn (rec_data r).
  Proof.
    intros Hi Hp Hg Hcl E0. destruct (record_from_vcn_spec v d vcn Hi Hp Hg) as (d2 & r2 & Hg' & E & H1 & H2 & H3 & H4 & H5).
    rewrite E0 in E. injection E as <- <-. split; auto. set (q := vcn * cluster_size nt) in *.
    destruct (Z_lt_le_dec q I64_MIN); [discriminate H1; lia|]. destruct (Z_lt_le_dec I64_MAX q); [discriminate H1; lia|].
    destruct (Z_lt_le_dec q 0); [discriminate H2; lia|]. destruct (Z_le_gt_dec (zlen alloc) q); [discriminate H3; lia|].
    destruct (Z_lt_le_dec (zlen alloc) (q + size)); [discriminate H4; lia|].
    specialize (Hcl ltac:(lia) ltac:(lia)). split; [lia|]. destruct (H5 ltac:(lia) ltac:(lia)) as (p & Er). clear H1 H2 H3 H4 H5. symmetry in Er.
    apply rbind_ok in Er as (x & Ex & Er). apply rbind_ok in Er as (n & En & Er). destruct (n =? vcn) eqn:Ev; [|discriminate]. injection Er as ->.
    unfold index_array_clear in Hcl. fold q in Hcl. set (prot := slice alloc q (q + size)) in *. assert (Hpl : zlen prot = size) by (unfold prot; rewrite slice_len; lia).
    assert (Hpb : bytes_ok prot) by now apply bytes_ok_slice.
    destruct (proj1 (irec_of_bytes_spec prot p Hpb ltac:(lia) Hcl r) Ex) as (data & -> & Hst & Hok). cbn [rec_data].
    unfold irec_vcn, rd_u64 in En. cbn [rec_data] in En. pose proof (st_len _ _ Hst). rewrite rd_in in En by lia. cbn [rbind] in En. injection En as <-.
    pose proof (field8_bound data 16 (stored_bytes_ok _ _ Hpb Hst)). split; auto. apply (proj1 (to_i64_small (field 8 data 16) vcn ltac:(lia) ltac:(unfold I64_MAX in *; nia))). lia.
  Qed.
End Vcn.
