(** * Proofs for C49: iterating over all index records of an index allocation. *)
From Coq Require Import Lia.
From Verif Require Import Base Dev Types Record DataRuns Stream NonResident Resident Attribute File Structured AttrList Index
  Spec SpecMisc SpecValues SpecIndex BaseProofs DevProofs DataRunsProofs ReaderProofs RecordProofs StreamProofs NonResidentProofs AttributeProofs FileProofs StructuredProofs ValueProofs
  AttrListProofs MiscProofs NodeProofs IndexRecordProofs IndexProofs DirectoryProofs.

Lemma iterate_stuck {S A} (next : S -> S * item A) (G : S -> Prop) x : (forall s, G s -> exists s', next s = (s', x) /\ G s') ->
  forall n s, G s -> iterate next n s = repeat x n.
Proof.
  intros H n. induction n as [|n IH]; intros s Hs; [reflexivity|]. cbn [iterate repeat]. destruct (H s Hs) as (s' & -> & Hs'). f_equal. auto.
Qed.

Section Records.
  Context (cs : Z) (img : list Z) (l : list extent) (enc : list Z) (p : position) (len size : Z).
  Context (Hib : bytes_ok img) (Hv : valid_extents cs img l) (He : encodes 0 l enc) (Hlen : 0 <= len <= extents_size cs l) (Hlen2 : len <= U64_MAX).
  Context (Hsize : 36 <= size <= U16_MAX) (fuel : nat).
  Notation Inv := (nr_inv cs enc p len (map (run_of cs) l)).
  Notation alloc := (file_content cs img l len).
  Context (Hcl : all_arrays_clear size alloc).
  Let Hz : zlen alloc = len := content_size cs img l len Hv Hlen.

  (** The reader stands at [q], and knows where on the device that is. *)
  Definition stands (q : Z) (v : nrv) : Prop := Inv v /\ nr_stream_position v = q /\ (q < len -> nr_data_position v = disk_position cs l q) /\ inside nr_ops v.

  Lemma stands_seek q v d off : 0 <= q < len -> 0 <= off <= I64_MAX -> q + off <= len -> stands q v -> good img true d ->
    exists d' v', nr_seek v (SCurrent off) d = (d', (v', Ok (q + off))) /\ stands (q + off) v' /\ good img true d'.
  Proof.
    intros Hq Ho Hq2 (HI & Hp & Hd & Hi) Hg. destruct HI as (rest & HI).
    assert (Ha : seek_arg_ok (SCurrent off)) by (cbn; unfold I64_MIN, I64_MAX in *; lia).
    destruct (nr_seek_ok cs enc p len img (map (run_of cs) l) true (valid_yields _ _ _ _ p Hv He) ltac:(lia) (valid_runs _ _ _ Hv) v rest (SCurrent off) d HI Hg Ha)
      as (d2 & v2 & out & E & G & _ & [(Hq3 & -> & Hp2 & rest' & I2 & Hat & Hin)|(Hq3 & -> & ->)]);
      cbn [seek_target] in *; rewrite Hp in *; [|lia]. rewrite E.
    exists d2, v2. split; auto. split; auto. split; [eexists; eauto|]. split; auto. split; auto.
    intros _. eapply at_pos_data_position; eauto; try lia.
    apply Hat. left. destruct HI as [_ K2 _ _ _ [K|K]]; [unfold pos in K; cbn in K; unfold nr_stream_position in *; lia|rewrite <- Hp; exact K].
  Qed.

  Notation av v := (AVSimple (SVNr v)).
  Lemma irec_step q v d : 0 <= q < len -> stands q v -> good img true d ->
    exists d', good img true d' /\ irec_new fuel (av v) size d =
      (d', if q + size <=? len then irec_of_bytes (slice alloc q (q + size)) (disk_position cs l q) else Err (EIo UnexpectedEof)).
  Proof.
    intros Hq (HI & Hp & Hd & _) Hg. unfold irec_new.
    assert (R : refines (av_read fuel) (av_seek fuel) (fun w => exists v, w = av v /\ Inv v) av_stream_position (good img true) alloc len).
    { eapply (refines_map (fun n => AVSimple (SVNr n))); [apply (nr_extents_refines cs img l enc p len Hv He ltac:(lia))| | |reflexivity].
      - intros s n0 d0. cbn. destruct (nr_read s n0 d0) as [? [? ?]]; reflexivity.
      - intros s sf d0. cbn. destruct (nr_seek s sf d0) as [? [? ?]]; reflexivity. }
    destruct (refines_read_exact _ _ _ _ _ _ _ R (av v) d size) as (d' & s' & _ & Hg' & [(H1 & E & _)|[(H1 & _ & E)|(H1 & _)]]); eauto; try lia; rewrite E; exists d'; (split; [auto|]);
      rewrite Hz in H1; change (av_stream_position (av v)) with (nr_stream_position v) in *; rewrite Hp in *.
    - replace (q + size <=? len) with true by lia. change (av_data_position (av v)) with (nr_data_position v). rewrite Hd by lia.
      unfold slice. now replace (q + size - q) with size by lia.
    - now replace (q + size <=? len) with false by lia.
  Qed.

  Lemma stored_at_iff q r : 0 <= q -> q mod size = 0 -> q + size <= len ->
    irec_of_bytes (slice alloc q (q + size)) (disk_position cs l q) = Ok r <->
    exists data, r = mkRecord data (disk_position cs l q) /\ record_stored_at size alloc q data.
  Proof.
    intros Hq Hm Hq2. rewrite irec_of_bytes_spec.
    - unfold record_stored_at. rewrite Hz. split; intros (data & -> & H); exists data; tauto.
    - apply bytes_ok_slice. now apply bytes_ok_content.
    - rewrite slice_len; lia.
    - apply Hcl; auto; lia.
  Qed.

  Lemma records_step q v d : 0 <= q -> q mod size = 0 -> stands q v -> good img true d ->
    exists d', good img true d' /\
    ((len <= q /\ index_records_next fuel size (av v) d = (d', (av v, None))) \/
     (exists data v', q < len /\ record_stored_at size alloc q data /\ stands (q + size) v' /\
        index_records_next fuel size (av v) d = (d', (av v', Some (Ok (mkRecord data (disk_position cs l q)))))) \/
     (q < len /\ (forall data, ~ record_stored_at size alloc q data) /\
        index_records_next fuel size (av v) d = (d', (av v, Some (match irec_of_bytes (slice alloc q (q + size)) (disk_position cs l q) with
           Ok _ => Err (EIo UnexpectedEof) | x => if q + size <=? len then x else Err (EIo UnexpectedEof) end))))).
  Proof.
    intros Hq Hm Hs Hg. unfold index_records_next. change (av_stream_position (av v)) with (nr_stream_position v). change (av_len (av v)) with (nr_len v).
    pose proof Hs as (HI & Hp & _). assert (Hl : nr_len v = len) by (destruct HI as (rest & HI); apply (inv_size _ _ _ _ _ _ HI)). rewrite Hl, Hp.
    destruct (len <=? q) eqn:E0; [exists d; split; auto; left; split; auto; lia|].
    destruct (irec_step q v d ltac:(lia) Hs Hg) as (d1 & Hg1 & ->).
    destruct (q + size <=? len) eqn:E1.
    - destruct (irec_of_bytes _ _) as [r|e| |] eqn:Er.
      { apply stored_at_iff in Er as (data & -> & Hst); [|lia|lia|lia].
        destruct (stands_seek q v d1 size ltac:(lia) ltac:(unfold I64_MAX, U16_MAX in *; lia) ltac:(lia) Hs Hg1) as (d2 & v2 & E & Hs2 & Hg2).
        cbn [av_seek sv_seek]. rewrite E. exists d2. split; auto. right. left. exists data, v2. split; [lia|]. auto. }
      all: exists d1; split; auto; right; right; split; [lia|]; split; auto.
      all: intros data Hst; assert (H := proj2 (stored_at_iff q (mkRecord data (disk_position cs l q)) Hq Hm ltac:(lia)) (ex_intro _ data (conj eq_refl Hst))); congruence.
    - exists d1. split; auto. right. right. split; [lia|]. split; [intros data (Hst & _); rewrite Hz in Hst; lia|].
      destruct (irec_of_bytes _ _); reflexivity.
  Qed.

  Definition stuck_error (q : Z) : res record :=
    match irec_of_bytes (slice alloc q (q + size)) (disk_position cs l q) with Ok _ => Err (EIo UnexpectedEof) | x => if q + size <=? len then x else Err (EIo UnexpectedEof) end.

  Lemma stuck_error_returns q : 0 <= q -> q mod size = 0 -> all_sizes_small size alloc -> exists e, stuck_error q = Err e.
  Proof.
    intros Hq Hm Hsm. unfold stuck_error. destruct (q + size <=? len) eqn:E; [|destruct (irec_of_bytes _ _); eauto].
    assert (Hr : returns (irec_of_bytes (slice alloc q (q + size)) (disk_position cs l q))).
    { destruct (Hsm q Hq Hm ltac:(lia)) as (S1 & S2). apply irec_of_bytes_returns; [apply bytes_ok_slice; now apply bytes_ok_content|rewrite slice_len; lia| |];
      rewrite field_slice by lia; auto. }
    destruct (irec_of_bytes _ _); cbn in Hr; eauto; contradiction.
  Qed.

  Lemma records_iterate q rs c : records_walk size alloc q rs c -> 0 <= q -> q mod size = 0 -> exists x, (all_sizes_small size alloc -> exists e, x = Err e) /\
    forall v d n, stands q v -> good img true d ->
    iterate (with_dev (index_records_next fuel size)) (length rs + n) (av v, d) =
      map (fun qd => Some (Ok (mkRecord (snd qd) (disk_position cs l (fst qd))))) rs ++ repeat (if c then None else Some x) n.
  Proof.
    induction 1 as [q Hend|q Hlt Hbad|q data rs c Hlt Hst W IH]; intros Hq Hm.
    - exists (Err (EIo OtherIo)). split; [eauto|]. intros v d n Hs Hg. cbn [length map app Nat.add]. rewrite Hz in Hend.
      apply (iterate_stuck _ (fun s => fst s = av v /\ good img true (snd s))); auto. intros [w d0] (Hw & Hg0). unfold with_dev. cbn [fst snd] in *. subst w.
      destruct (records_step q v d0 Hq Hm Hs Hg0) as (d' & Hg' & [(_ & ->)|[(? & ? & ? & _)|(? & _)]]); try lia. eexists. split; [reflexivity|]. auto.
    - exists (stuck_error q). split; [apply stuck_error_returns; auto|]. intros v d n Hs Hg. cbn [length map app Nat.add]. rewrite Hz in Hlt.
      apply (iterate_stuck _ (fun s => fst s = av v /\ good img true (snd s))); auto. intros [w d0] (Hw & Hg0). unfold with_dev. cbn [fst snd] in *. subst w.
      destruct (records_step q v d0 Hq Hm Hs Hg0) as (d' & Hg' & [(? & _)|[(data & ? & ? & Hst & _)|(_ & _ & ->)]]); [lia|destruct (Hbad data Hst)|]. eexists. split; [reflexivity|]. auto.
    - destruct (IH ltac:(lia) ltac:(rewrite Z.add_mod, Hm, Z.mod_same by lia; apply Z.mod_0_l; lia)) as (x & Hx & IH2). exists x. split; auto. intros v d n Hs Hg. rewrite Hz in Hlt.
      destruct (records_step q v d Hq Hm Hs Hg) as (d' & Hg' & [(? & _)|[(data2 & v' & _ & Hst2 & Hs2 & E)|(_ & Hbad & _)]]); [lia| |destruct (Hbad data Hst)].
      assert (data2 = data) as ->. { eapply stored_unique; [|apply Hst2|apply Hst]. apply bytes_ok_slice. now apply bytes_ok_content. }
      cbn [length Nat.add iterate map app]. unfold with_dev at 1. cbn [fst snd]. rewrite E. f_equal. apply IH2; auto.
  Qed.

  Lemma records_walk_exists : forall k q, 0 <= q -> q mod size = 0 -> Z.to_nat (len - q) = k -> exists rs c, records_walk size alloc q rs c.
  Proof.
    intros k. induction k as [k IH] using (well_founded_induction Wf_nat.lt_wf). intros q Hq Hm Hk.
    destruct (Z_le_gt_dec len q) as [H|H]; [exists [], true; constructor; lia|].
    destruct (Z_le_gt_dec (q + size) len) as [H2|H2].
    2: { exists [], false. constructor; [lia|]. intros data (Hst & _). lia. }
    destruct (irec_of_bytes (slice alloc q (q + size)) (disk_position cs l q)) as [r|e| |] eqn:E.
    { apply stored_at_iff in E as (data & -> & Hst); [|lia|lia|lia]. destruct (IH (Z.to_nat (len - (q + size))) ltac:(lia) (q + size) ltac:(lia) ltac:(rewrite Z.add_mod, Hm, Z.mod_same by lia; apply Z.mod_0_l; lia) eq_refl) as (rs & c & W).
      exists ((q, data) :: rs), c. constructor; auto. lia. }
    all: exists [], false; constructor; [lia|]; intros data Hst;
      assert (K := proj2 (stored_at_iff q (mkRecord data (disk_position cs l q)) Hq Hm ltac:(lia)) (ex_intro _ data (conj eq_refl Hst))); congruence.
  Qed.
End Records.

Lemma records_walk_fun size alloc q rs c : bytes_ok alloc -> records_walk size alloc q rs c -> forall rs' c', records_walk size alloc q rs' c' -> rs = rs' /\ c = c'.
Proof.
  intros Hb. induction 1 as [q H|q H Hbad|q data rs c Hlt Hst W IH]; intros rs' c' W'; inversion W' as [q' H'|q' H' Hbad'|q' data' rs2 c2 Hlt' Hst' W2]; subst; try lia; auto.
  - destruct (Hbad data' Hst').
  - destruct (Hbad' data Hst).
  - destruct (IH rs2 c' W2) as (-> & ->). split; auto. do 2 f_equal. eapply stored_unique; [|apply Hst|apply Hst']. now apply bytes_ok_slice.
Qed.

Lemma allocation_records nt img f o l size fuel d : bytes_ok img -> bytes_ok (f_data f) -> 0 <= o -> attr_fits (f_data f) o ->
  ~ attr_resident_at (f_data f) o -> o + 56 <= zlen (f_data f) -> field 2 (f_data f) (o + 32) <= attr_len_at (f_data f) o ->
  valid_extents (cluster_size nt) img l -> encodes 0 l (slice (f_data f) (o + field 2 (f_data f) (o + 32)) (o + attr_len_at (f_data f) o)) ->
  field 8 (f_data f) (o + 48) <= extents_size (cluster_size nt) l -> 36 <= size <= U16_MAX -> faultless d -> d_img d = img ->
  let alloc := file_content (cluster_size nt) img l (field 8 (f_data f) (o + 48)) in
  all_arrays_clear size alloc ->
  exists v, attr_value nt (mkAttr f o None) d = (d, Ok v) /\ ia_of_value v = Ok v /\
  exists rs c x, records_walk size alloc 0 rs c /\ (all_sizes_small size alloc -> exists e, x = Err e) /\
    forall n, iterate (with_dev (index_records_next fuel size)) (length rs + n) (v, d) =
      map (fun qd => Some (Ok (mkRecord (snd qd) (disk_position (cluster_size nt) l (fst qd))))) rs ++ repeat (if c then None else Some x) n.
Proof.
  intros Hib Hb Ho Hf Hnr H56 Hro Hv He Hs Hsize Hfa Hd alloc Hcl. pose proof (field8_bound (f_data f) (o + 48) Hb) as Hsz.
  set (len := field 8 (f_data f) (o + 48)) in *. set (enc := slice (f_data f) _ _) in *. set (p := pos_add (f_position f) (o + field 2 (f_data f) (o + 32))).
  destruct (nr_extents_new (cluster_size nt) img l enc p len Hv He) as (n & E & Hi & Hp & Hin & _).
  pose proof (nr_fresh_position (cluster_size nt) img l enc p len Hv He Hsz n E) as Hpos.
  exists (AVSimple (SVNr n)). split.
  { unfold attr_value. cbn [at_entries]. unfold mbind, mlift, mret. rewrite (attr_value_extents f (cluster_size nt) o None Hb Ho Hf H56 Hnr Hro).
    fold enc p len. rewrite E. reflexivity. }
  split; [reflexivity|].
  destruct (records_walk_exists (cluster_size nt) img l len size Hib Hv ltac:(lia) Hsize Hcl (Z.to_nat (len - 0)) 0 ltac:(lia) ltac:(apply Z.mod_0_l; lia) eq_refl) as (rs & c & W).
  destruct (records_iterate (cluster_size nt) img l enc p len size Hib Hv He ltac:(lia) ltac:(lia) Hsize fuel Hcl 0 rs c W ltac:(lia) ltac:(apply Z.mod_0_l; lia)) as (x & Hx & H).
  exists rs, c, x. split; auto. split; auto. intros k. apply H; [|split; auto]. split; auto.
Qed.

(** The position of a record that is asked for by its number. *)
Lemma fixup_position r : rec_position (fst (fixup r)) = rec_position r.
Proof. unfold fixup. destruct (rbind _ _) as [[[usn count] start]|e| |]; auto. destruct (fixup_loop _ _ _ _ _ _); reflexivity. Qed.
Lemma irec_of_bytes_position data p r : irec_of_bytes data p = Ok r -> rec_position r = p.
Proof.
  unfold irec_of_bytes. intros H. apply rbind_ok in H as (u & _ & H). pose proof (fixup_position (mkRecord data p)) as Hp. destruct (fixup _) as [r' [[]|e| |]]; try discriminate.
  apply rbind_ok in H as (w & _ & H). injection H as <-. exact Hp.
Qed.

Lemma allocation_record_position nt img f o l size vcn fuel d : bytes_ok img -> bytes_ok (f_data f) -> 0 <= o -> attr_fits (f_data f) o ->
  ~ attr_resident_at (f_data f) o -> o + 56 <= zlen (f_data f) -> field 2 (f_data f) (o + 32) <= attr_len_at (f_data f) o ->
  valid_extents (cluster_size nt) img l -> encodes 0 l (slice (f_data f) (o + field 2 (f_data f) (o + 32)) (o + attr_len_at (f_data f) o)) ->
  field 8 (f_data f) (o + 48) <= extents_size (cluster_size nt) l -> 36 <= size <= U16_MAX -> faultless d -> d_img d = img ->
  forall v d' r, attr_value nt (mkAttr f o None) d = (d, Ok v) -> record_from_vcn fuel nt v size vcn d = (d', Ok r) ->
  rec_position r = disk_position (cluster_size nt) l (vcn * cluster_size nt).
Proof.
  intros Hib Hb Ho Hf Hnr H56 Hro Hv He Hs Hsize Hfa Hd v d' r Ev Er. pose proof (field8_bound (f_data f) (o + 48) Hb) as Hsz.
  set (len := field 8 (f_data f) (o + 48)) in *. set (enc := slice (f_data f) _ _) in *. set (p := pos_add (f_position f) (o + field 2 (f_data f) (o + 32))) in *.
  destruct (nr_extents_new (cluster_size nt) img l enc p len Hv He) as (n & E & Hi & Hp & Hin & _).
  pose proof (nr_fresh_position (cluster_size nt) img l enc p len Hv He Hsz n E) as Hpos.
  unfold attr_value in Ev. cbn [at_entries] in Ev. unfold mbind, mlift, mret in Ev. rewrite (attr_value_extents f (cluster_size nt) o None Hb Ho Hf H56 Hnr Hro) in Ev.
  fold enc p len in Ev. rewrite E in Ev. cbn [rbind] in Ev. injection Ev as <-.
  unfold record_from_vcn, vcn_offset in Er. set (q := vcn * cluster_size nt) in *.
  destruct ((I64_MIN <=? q) && (q <=? I64_MAX)) eqn:E0; [|discriminate]. unfold mbind, mlift at 1 in Er. cbn [av_seek sv_seek] in Er.
  assert (Hneg : q < 0 -> False).
  { intros Hq. destruct (rf_seek _ _ _ _ _ _ _ (nr_extents_refines (cluster_size nt) img l enc p len Hv He Hsz) n d (SCurrent q) Hi (conj Hd (fun _ => Hfa))) as (d1 & v1 & _ & _ & [(H & _)|(_ & H & _)]);
    cbn [seek_target] in *; [cbn; unfold I64_MIN, I64_MAX in *; lia|lia|]. rewrite H in Er. discriminate. }
  destruct (Z_lt_le_dec q 0) as [|Hq0]; [tauto|].
  destruct (Z_le_gt_dec len q) as [Hge|Hlt].
  { destruct (rf_seek _ _ _ _ _ _ _ (nr_extents_refines (cluster_size nt) img l enc p len Hv He Hsz) n d (SCurrent q) Hi (conj Hd (fun _ => Hfa))) as (d1 & v1 & _ & I1 & [(_ & H & Hp1)|(_ & H & _)]);
    cbn [seek_target] in *; [cbn; unfold I64_MIN, I64_MAX in *; lia| |rewrite H in Er; discriminate].
    rewrite H in Er. assert (Hl : nr_len v1 = len) by (destruct I1 as (rest & I1); apply (inv_size _ _ _ _ _ _ I1)).
    change (av_stream_position (AVSimple (SVNr v1))) with (nr_stream_position v1) in Er. change (av_len (AVSimple (SVNr v1))) with (nr_len v1) in Er.
    rewrite Hl, Hp1, Hp in Er. replace (len <=? 0 + q) with true in Er by lia. discriminate. }
  destruct (stands_seek (cluster_size nt) img l enc p len Hv He ltac:(lia) ltac:(lia) 0 n d q ltac:(lia) ltac:(lia) ltac:(lia)) as (d1 & v1 & H & (I1 & Hp1 & Hd1 & _) & G1).
  { split; auto. } { split; auto. }
  rewrite H in Er. assert (Hl : nr_len v1 = len) by (destruct I1 as (rest & I1); apply (inv_size _ _ _ _ _ _ I1)).
  change (av_stream_position (AVSimple (SVNr v1))) with (nr_stream_position v1) in Er. change (av_len (AVSimple (SVNr v1))) with (nr_len v1) in Er.
  rewrite Hl, Hp1 in Er. replace (len <=? 0 + q) with false in Er by lia.
  destruct (irec_new fuel (AVSimple (SVNr v1)) size d1) as [d2 x] eqn:En. unfold irec_new in En.
  destruct (rs_read_exact _ _ _ _) as [d3 [v3 y]]. destruct x as [x|e| |]; try discriminate. destruct y as [data|e| |]; try discriminate.
  assert (Ex : irec_of_bytes data (av_data_position (AVSimple (SVNr v1))) = Ok x) by congruence. apply irec_of_bytes_position in Ex.
  unfold mret, mlift in Er. destruct (irec_vcn x) as [k|e| |]; try discriminate. destruct (k =? vcn); try discriminate. injection Er as <- <-.
  rewrite Ex. change (av_data_position (AVSimple (SVNr v1))) with (nr_data_position v1). rewrite Hd1 by lia. reflexivity.
Qed.
