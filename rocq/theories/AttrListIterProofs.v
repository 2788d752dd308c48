(** * Iteration over the entries of an attribute list. *)
From Verif Require Import Base Dev Types Record DataRuns Stream NonResident Resident Attribute File Structured AttrList
  Spec SpecIndex SpecAttrList BaseProofs DevProofs StreamProofs DataRunsProofs ReaderProofs ResidentProofs NonResidentProofs StructuredProofs ValueProofs MiscProofs NodeProofs.

(** [reads_front] that also says what is left of the device after an error. *)
Definition reads_any {S} (rx : Z -> RM S (list Z)) (At : Z -> S -> Prop) (good : dev -> Prop) (bs : list Z) : Prop :=
  forall q n s d, At q s -> good d -> 0 <= n -> 0 <= q <= zlen bs ->
    exists s' d', good d' /\
      ((q + n <= zlen bs /\ rx n s d = (d', (s', Ok (slice bs q (q + n)))) /\ At (q + n) s') \/
       (zlen bs < q + n /\ rx n s d = (d', (s', Err (EIo UnexpectedEof))))).

Lemma reads_any_refines {S} read seek I posf good bs size : @refines S read seek I posf good bs size ->
  reads_any (fun n s d => rs_read_exact read s n d) (fun q s => I s /\ posf s = q) good bs.
Proof.
  intros R q n s d (Hi & Hp) Hg Hn Hq.
  destruct (refines_read_exact _ _ _ _ _ _ _ R s d n Hi Hg Hn) as (d' & s' & Hi' & Hg' & H). rewrite Hp in H. exists s', d'. split; auto.
  destruct H as [(Hle & E & Hp')|[(Hlt & _ & E)|(-> & E & Hp')]].
  - left. split; auto. split; auto. rewrite E. unfold slice. now replace (q + n - q) with n by lia.
  - right. auto.
  - left. split; [lia|]. split; [|split; auto; lia]. rewrite E. unfold slice. now rewrite (ztake_0 (q + 0 - q)) by lia.
Qed.

Lemma to_i64_signed x : 0 <= x < 2 ^ 64 -> - 2 ^ 63 <= to_i64 x < 2 ^ 63 /\ to_i64 x mod 2 ^ 64 = x.
Proof.
  intros H. unfold to_i64, I64_MAX, TWO64 in *. destruct (x <=? _) eqn:E.
  - split; [lia|]. apply Z.mod_small. lia.
  - split; [lia|]. replace (x - _) with (x + (-1) * 2 ^ 64) by lia. rewrite Z.mod_add by lia. apply Z.mod_small. lia.
Qed.

(** The error of the entry at [q]. *)
Definition le_error (bs : list Z) (q : Z) (p : position) : err :=
  if zlen bs <? q + 26 then EIo UnexpectedEof
  else if lentry_len bs q <? 26 + lentry_name_bytes bs q
  then EInvalidStructuredValueSize p TY_AttributeList (lentry_len bs q) (26 + lentry_name_bytes bs q)
  else EIo UnexpectedEof.

Lemma list_entry_fits_dec bs o : list_entry_fits bs o \/ ~ list_entry_fits bs o.
Proof. unfold list_entry_fits. lia. Qed.

Section New.
  Context {S : Type} (rx : Z -> RM S (list Z)) (At : Z -> S -> Prop) (good : dev -> Prop) (bs : list Z) (Hb : bytes_ok bs).
  Context (Hrx : reads_any rx At good bs).

  Lemma le_new_at q p s d : At q s -> good d -> 0 <= q <= zlen bs ->
    exists s' d' r, le_new rx p s d = (d', (s', r)) /\ good d' /\
      ((list_entry_fits bs q /\ exists e, r = Ok e /\ decodes_list_entry bs q e /\ le_position e = p) \/
       (~ list_entry_fits bs q /\ r = Err (le_error bs q p))).
  Proof.
    intros Ha Hg Hq. unfold le_new, list_entry_fits, le_error.
    pose proof (field1_bound bs (q + 6) Hb) as B1. 
    destruct (Hrx q 26 s d Ha Hg ltac:(lia) Hq) as (s1 & d1 & G1 & [(Hl & E & A1)|(Hl & E)]); unfold rm_bind at 1; rewrite E; cbn beta iota.
    2: { exists s1, d1. eexists. split; [reflexivity|]. split; auto. right. unfold lentry_name_bytes. split; [lia|].
         now replace (zlen bs <? q + 26) with true by lia. }
    replace (zlen bs <? q + 26) with false by lia.
    rewrite !field_slice by lia. unfold lentry_len, lentry_name_bytes. rewrite (Z.mul_comm (field 1 bs (q + 6)) 2).
    destruct (field 2 bs (q + 4) <? _) eqn:El.
    { exists s1, d1. eexists. split; [reflexivity|]. split; auto. right. split; [lia|]. reflexivity. }
    destruct (Hrx (q + 26) (2 * field 1 bs (q + 6)) s1 d1 A1 G1 ltac:(lia) ltac:(lia)) as (s2 & d2 & G2 & [(Hl2 & E2 & A2)|(Hl2 & E2)]);
      unfold rm_bind at 1; rewrite E2; cbn beta iota.
    2: { exists s2, d2. eexists. split; [reflexivity|]. split; auto. right. split; [lia|]. reflexivity. }
    exists s2, d2. eexists. split; [reflexivity|]. split; auto. left. split; [lia|]. eexists. split; [reflexivity|].
    split; [|reflexivity]. unfold le_of_header.
    assert (Hsl : slice (slice bs q (q + 26)) 16 24 = slice bs (q + 16) (q + 24)) by (apply slice_slice; lia).
    assert (Hfr := fr_split (slice bs (q + 16) (q + 24)) ltac:(now apply bytes_ok_slice) ltac:(rewrite slice_len; lia)).
    destruct Hfr as (F1 & F2 & _).
    assert (F3 : ztake 6 (slice bs (q + 16) (q + 24)) = slice bs (q + 16) (q + 22)).
    { unfold slice. rewrite ztake_ztake. f_equal; lia. }
    assert (F4 : zdrop 6 (slice bs (q + 16) (q + 24)) = slice bs (q + 22) (q + 24)).
    { unfold slice. rewrite zdrop_ztake by lia. rewrite zdrop_zdrop by lia. f_equal; try lia. f_equal; lia. }
    split; cbn [le_raw_ty le_length le_raw_name_length le_lowest_vcn le_ref le_instance le_name]; unfold lentry_len, lentry_name_bytes, le_number;
      cbn [le_ref]; rewrite ?Hsl, ?field_slice by lia.
    - f_equal; lia.
    - reflexivity.
    - reflexivity.
    - apply to_i64_signed. pose proof (field8_bound bs (q + 8) Hb). unfold U64_MAX in *. lia.
    - reflexivity.
    - rewrite F1, F3. unfold field. do 2 f_equal. lia.
    - rewrite F2, F4. unfold field. do 2 f_equal. lia.
    - reflexivity.
    - f_equal; lia.
  Qed.
End New.

(** ** Walks *)
Lemma list_walk_exists bs : bytes_ok bs -> forall k o, 0 <= o <= zlen bs -> zlen bs - o <= Z.of_nat k -> exists offs e, list_walk bs o offs e.
Proof.
  intros Hb. induction k as [|k IH]; intros o Ho Hk.
  - exists [], ListDone. apply lw_done. lia.
  - destruct (Z.eq_dec o (zlen bs)) as [He|He]; [exists [], ListDone; now apply lw_done|].
    destruct (list_entry_fits_dec bs o) as [Hf|Hf]; [|exists [], ListMalformed; apply lw_malformed; auto; lia].
    destruct (Z_le_gt_dec (o + lentry_len bs o) (zlen bs)) as [Hl|Hl]; [|exists [], (ListCut o); apply lw_cut; auto; lia].
    pose proof (field1_bound bs (o + 6) Hb). unfold list_entry_fits, lentry_name_bytes in *.
    destruct (IH (o + lentry_len bs o)) as (offs & e & W); [lia|lia|]. exists (o :: offs), e. apply lw_entry; auto; unfold list_entry_fits, lentry_name_bytes; lia.
Qed.

Lemma list_walk_bound bs o offs e : bytes_ok bs -> list_walk bs o offs e -> 0 <= o <= zlen bs ->
  26 * zlen offs <= zlen bs - o /\ Forall (fun a => o <= a /\ a + lentry_len bs a <= zlen bs) offs.
Proof.
  intros Hb. induction 1 as [o He|o H1 H2|o H1 H2 H3|o offs e H1 H2 H3 W IH]; intros Ho; try (change (zlen (@nil Z)) with 0; split; [lia|apply Forall_nil]).
  pose proof (field1_bound bs (o + 6) Hb). unfold list_entry_fits, lentry_name_bytes in *. destruct IH as (B & F); [lia|]. rewrite zlen_cons. split; [lia|].
  apply Forall_cons; [lia|]. eapply Forall_impl; [|exact F]. cbn beta. intros. lia.
Qed.

Lemma list_walk_det bs o offs e : list_walk bs o offs e -> forall offs' e', list_walk bs o offs' e' -> offs = offs' /\ e = e'.
Proof.
  induction 1; intros offs' e' W; inversion W; subst; try lia; try tauto; auto.
  destruct (IHlist_walk _ _ ltac:(eassumption)) as (-> & ->). auto.
Qed.

(** ** Resident lists *)
Lemma slice_zdrop (l : list Z) o a b : 0 <= a -> 0 <= o -> slice (zdrop o l) a b = slice l (o + a) (o + b).
Proof. intros. unfold slice. rewrite zdrop_zdrop by lia. replace (a + o) with (o + a) by lia. now replace (o + b - (o + a)) with (b - a) by lia. Qed.
Lemma field_zdrop n l o a : 0 <= a -> 0 <= o -> field n (zdrop o l) a = field n l (o + a).
Proof. intros. unfold field. rewrite slice_zdrop by lia. do 2 f_equal. lia. Qed.
Section Resident.
  Context (bs : list Z) (p : position) (Hb : bytes_ok bs) (Hl : zlen bs <= U64_MAX) (Hp : position_sane p (zlen bs)).

  Lemma zdrop_cons o : 0 <= o < zlen bs -> exists b t, zdrop o bs = b :: t.
  Proof. intros Ho. destruct (zdrop o bs) eqn:E; eauto. exfalso. assert (H : zlen (zdrop o bs) = 0) by (rewrite E; apply zlen_nil). rewrite zlen_zdrop in H. lia. Qed.

  Lemma fits_zdrop o : 0 <= o <= zlen bs -> list_entry_fits (zdrop o bs) 0 <-> list_entry_fits bs o.
  Proof.
    intros Ho. unfold list_entry_fits, lentry_name_bytes, lentry_len. rewrite zlen_zdrop, !Z.add_0_l.
    assert (forall n a, 0 <= a -> 0 <= n -> field n (zdrop o bs) a = field n bs (o + a)) as F by (intros; apply field_zdrop; lia).
    rewrite !F by lia. split; intros; lia.
  Qed.
  Lemma decodes_zdrop o e : 0 <= o <= zlen bs -> decodes_list_entry (zdrop o bs) 0 e -> decodes_list_entry bs o e.
  Proof.
    intros Ho [D1 D2 D3 D4 D5 D6 D7 D8 D9].
    assert (forall n a, 0 <= a -> 0 <= n -> field n (zdrop o bs) a = field n bs (o + a)) as F by (intros; apply field_zdrop; lia).
    assert (forall a c, 0 <= a -> slice (zdrop o bs) a c = slice bs (o + a) (o + c)) as G.
    { intros. apply slice_zdrop; lia. }
    pose proof (field1_bound bs (o + 6) Hb).
    unfold lentry_len, lentry_name_bytes in *. rewrite ?Z.add_0_l in *.
    rewrite F in D1, D2, D3, D4, D6, D7, D8 by lia. rewrite G in D5, D9 by lia. rewrite Z.add_0_r in D1. rewrite F in D9 by lia.
    split; auto. rewrite D9. unfold lentry_name_bytes. f_equal. lia.
  Qed.

  Lemma cursor_reads_any (data : list Z) p0 : zlen data <= U64_MAX ->
    reads_any cursor_exact (fun q s => (rv_data s = data /\ rv_position s = p0 /\ 0 <= rv_sp s <= U64_MAX) /\ res_stream_position s = q) (fun _ => True) data.
  Proof. intros H. apply (reads_any_refines _ _ _ _ _ _ _ (res_refines data p0 H)). Qed.

  Lemma alist_next_resident o d : 0 <= o < zlen bs ->
    (list_entry_fits bs o -> exists e, decodes_list_entry bs o e /\ le_position e = pos_add p o /\
       (o + lentry_len bs o <= zlen bs -> alist_next (ALResident (zdrop o bs) (pos_add p o)) d =
          (d, (ALResident (zdrop (o + lentry_len bs o) bs) (pos_add p (o + lentry_len bs o)), Some (Ok e)))) /\
       (zlen bs < o + lentry_len bs o -> alist_next (ALResident (zdrop o bs) (pos_add p o)) d =
          (d, (ALResident (zdrop o bs) (pos_add p o), None)))) /\
    (~ list_entry_fits bs o -> exists x, alist_next (ALResident (zdrop o bs) (pos_add p o)) d =
          (d, (ALResident (zdrop o bs) (pos_add p o), Some (Err x)))).
  Proof.
    intros Ho. assert (Hbd : bytes_ok (zdrop o bs)) by now apply bytes_ok_zdrop.
    assert (Hld : zlen (zdrop o bs) <= U64_MAX) by (rewrite zlen_zdrop; lia).
    destruct (le_new_at cursor_exact _ _ _ Hbd (cursor_reads_any (zdrop o bs) (pos_add p o) Hld) 0 (pos_add p o) (res_new (zdrop o bs) (pos_add p o)) no_dev)
      as (s' & d' & r & E & _ & C).
    { split; [|reflexivity]. split; [reflexivity|]. split; [reflexivity|]. cbn [rv_sp res_new]. unfold U64_MAX. lia. }
    { exact Logic.I. }
    { pose proof (zlen_nonneg (zdrop o bs)). lia. }
    destruct (zdrop_cons o Ho) as (b & t & Eb).
    assert (Hun : forall d, alist_next (ALResident (zdrop o bs) (pos_add p o)) d =
       match r with
       | Ok e => if le_length e <=? zlen (zdrop o bs)
                 then (d, (ALResident (zdrop (le_length e) (zdrop o bs)) (pos_add (pos_add p o) (le_length e)), Some (Ok e)))
                 else (d, (ALResident (zdrop o bs) (pos_add p o), None))
       | Err x => (d, (ALResident (zdrop o bs) (pos_add p o), Some (Err x)))
       | Panic => (d, (ALResident (zdrop o bs) (pos_add p o), Some Panic))
       | OutOfFuel => (d, (ALResident (zdrop o bs) (pos_add p o), Some OutOfFuel)) end).
    { intros d0. unfold alist_next. rewrite Eb. rewrite Eb in E. rewrite E. reflexivity. }
    rewrite Hun. rewrite fits_zdrop in C by lia. split; intros Hf.
    - destruct C as [(_ & e & -> & D & Dp)|(? & _)]; [|tauto]. apply decodes_zdrop in D; [|lia].
      exists e. split; auto. split; auto. rewrite (dle_length _ _ _ D), zlen_zdrop. pose proof (field2_bound bs (o + 4) Hb) as B2. fold (lentry_len bs o) in B2.
      split; intros Hle.
      + replace (lentry_len bs o <=? _) with true by lia. rewrite zdrop_zdrop by lia. rewrite (pos_add_add p (zlen bs)) by (auto; lia). now rewrite (Z.add_comm (lentry_len bs o) o).
      + replace (lentry_len bs o <=? _) with false by lia. reflexivity.
    - destruct C as [(? & _)|(_ & ->)]; [tauto|]. eauto.
  Qed.


  Lemma alist_resident_walk o offs e : list_walk bs o offs e -> 0 <= o <= zlen bs -> forall d, exists es x,
    Forall2 (fun o' v => decodes_list_entry bs o' v /\ le_position v = pos_add p o') offs es /\
    forall n, iterate (with_dev alist_next) (length offs + n) (ALResident (zdrop o bs) (pos_add p o), d) =
      map (fun v => Some (Ok v)) es ++ repeat (after_list e x) n.
  Proof.
    induction 1 as [o He|o H1 H2|o H1 H2 H3|o offs e H1 H2 H3 W IH]; intros Ho d.
    - exists [], (EIo OtherIo). split; [constructor|]. intros n. cbn [length Nat.add map app]. apply iterate_fixed. rewrite zdrop_all by lia. reflexivity.
    - destruct (proj2 (alist_next_resident o d ltac:(lia)) H2) as (x & E). exists [], x. split; [constructor|]. intros n. cbn [length Nat.add map app].
      apply iterate_fixed. unfold with_dev. cbn [fst snd]. now rewrite E.
    - destruct (proj1 (alist_next_resident o d ltac:(lia)) H2) as (e & _ & _ & _ & E). exists [], (EIo OtherIo). split; [constructor|]. intros n. cbn [length Nat.add map app].
      apply iterate_fixed. unfold with_dev. cbn [fst snd]. now rewrite (E H3).
    - destruct (proj1 (alist_next_resident o d ltac:(lia)) H2) as (v & D & Dp & E & _). 
      pose proof (field2_bound bs (o + 4) Hb) as B2. fold (lentry_len bs o) in B2.
      destruct (IH ltac:(lia) d) as (es & x & F & It). exists (v :: es), x. split; [constructor; auto|]. intros n. cbn [length Nat.add map app iterate].
      unfold with_dev at 1. cbn [fst snd]. rewrite (E H3). now rewrite It.
  Qed.

  Lemma alist_resident d : exists offs e es x, list_walk bs 0 offs e /\ 26 * zlen offs <= zlen bs /\
    Forall2 (fun o v => decodes_list_entry bs o v /\ le_position v = pos_add p o) offs es /\
    (forall n, iterate (with_dev alist_next) (length offs + n) (ALResident bs p, d) =
      map (fun v => Some (Ok v)) es ++ repeat (after_list e x) n).
  Proof.
    pose proof (zlen_nonneg bs). destruct (list_walk_exists bs Hb (length bs) 0) as (offs & e & W); [lia|unfold zlen; lia|].
    destruct (alist_resident_walk 0 offs e W ltac:(lia) d) as (es & x & F & It). exists offs, e, es, x. split; auto.
    split; [pose proof (list_walk_bound _ _ _ _ Hb W ltac:(lia)); lia|]. split; auto. intros n. rewrite <- It. rewrite zdrop_0 by lia. rewrite (pos_add_0 p (zlen bs)); auto.
  Qed.
End Resident.

(** ** Non-resident lists *)
Section NonRes.
  Context (cs : Z) (img : list Z) (l : list extent) (enc : list Z) (p : position) (size : Z).
  Context (Hv : valid_extents cs img l) (He : encodes 0 l enc) (Hsize : 0 <= size <= extents_size cs l) (Hmax : size + U16_MAX <= U64_MAX).
  Notation bs := (file_content cs img l size).
  Context (Hb : bytes_ok bs).
  Notation runs := (map (run_of cs) l).
  Notation Inv := (nr_inv cs enc p size runs).

  Definition nr_at (q : Z) (v : nrv) : Prop := Inv v /\ nr_stream_position v = q /\ (q < size -> nr_data_position v = disk_position cs l q).

  Lemma nr_len_inv v : Inv v -> nr_len v = size.
  Proof. intros Hi. exact (proj2 (proj2 (nr_inv_facts _ _ _ _ _ _ Hi))). Qed.

  Lemma seek_forward q v k d : nr_at q v -> good img true d -> 0 <= q < size -> 0 < k <= U16_MAX ->
    exists d' v', nr_seek v (SCurrent k) d = (d', (v', Ok (q + k))) /\ good img true d' /\ nr_at (q + k) v'.
  Proof.
    intros ((rest & Hi) & Hq & _) Hg Hr Hk. unfold U16_MAX, U64_MAX in *.
    destruct (nr_seek_ok cs enc p size img runs true (valid_yields _ _ _ _ p Hv He) ltac:(unfold U64_MAX; lia) (valid_runs _ _ _ Hv) v rest (SCurrent k) d Hi Hg)
      as (d' & v' & out & E & G & _ & C). { cbn [seek_arg_ok]. unfold I64_MIN, I64_MAX. lia. }
    cbn [seek_target] in C. rewrite Hq in C. unfold U64_MAX in C.
    destruct C as [(Hq2 & -> & Hp & rest' & I2 & Hat & Hin)|(Hq2 & _)]; [|lia].
    exists d', v'. split; auto. split; auto. split; [exists rest'; auto|]. split; auto. intros _.
    eapply at_pos_data_position; eauto; [| |lia].
    - apply Hat. left. destruct Hi as [_ K2 _ _ _ [K|K]]; [unfold pos in K; cbn in K; unfold nr_stream_position in *; lia|]. rewrite <- Hq. exact K.
    - apply Hin. left. lia.
  Qed.

  Lemma alist_next_nonres q v d : nr_at q v -> good img true d -> 0 <= q ->
    (size <= q -> alist_next (ALNonResident v) d = (d, (ALNonResident v, None))) /\
    (q < size -> list_entry_fits bs q -> exists e d' v', decodes_list_entry bs q e /\ le_position e = disk_position cs l q /\
       alist_next (ALNonResident v) d = (d', (ALNonResident v', Some (Ok e))) /\ good img true d' /\ nr_at (q + lentry_len bs q) v') /\
    (q < size -> ~ list_entry_fits bs q -> exists d',
       alist_next (ALNonResident v) d = (d', (ALNonResident v, Some (Err (le_error bs q (disk_position cs l q))))) /\ good img true d').
  Proof.
    intros Ha Hg Hq. pose proof Ha as (Hi & Hp & Hd). unfold alist_next. rewrite (nr_len_inv v Hi), Hp. pose proof (content_size cs img l size Hv Hsize) as Hcs.
    split. { intros H. now replace (size <=? q) with true by lia. }
    destruct (Z_lt_le_dec q size) as [Hlt|Hge]; [|split; lia]. replace (size <=? q) with false by lia.
    assert (HU : 0 <= size <= U64_MAX) by (unfold U16_MAX in *; lia).
    destruct (le_new_at _ _ _ _ Hb (reads_any_refines _ _ _ _ _ _ _ (attached_refines _ _ _ _ _ _ _ (nr_extents_refines cs img l enc p size Hv He HU)))
      q (nr_data_position v) v d (conj Hi Hp) Hg ltac:(lia)) as (s' & d' & r & E & G & C).
    unfold attached_exact. rewrite E. rewrite (Hd Hlt) in C. split; intros _ Hf.
    - destruct C as [(_ & e & -> & D & Dp)|(? & _)]; [|tauto].
      destruct (seek_forward q v (le_length e) d' Ha G ltac:(lia)) as (d2 & v2 & E2 & G2 & A2).
      { rewrite (dle_length _ _ _ D). pose proof (field2_bound bs (q + 4) Hb). pose proof (field1_bound bs (q + 6) Hb). unfold list_entry_fits, lentry_name_bytes, lentry_len in *. lia. }
      rewrite E2. exists e, d2, v2. rewrite <- (dle_length _ _ _ D). auto.
    - destruct C as [(? & _)|(_ & ->)]; [tauto|]. eauto.
  Qed.


  Lemma nonres_end q v : nr_at q v -> size <= q -> forall n d, iterate (with_dev alist_next) n (ALNonResident v, d) = repeat None n.
  Proof.
    intros Ha Hs n d. apply iterate_fixed. unfold with_dev. cbn [fst snd]. destruct Ha as (Hi & Hp & _). unfold alist_next.
    rewrite (nr_len_inv v Hi), Hp. now replace (size <=? q) with true by lia.
  Qed.
  Lemma nonres_error q v : nr_at q v -> 0 <= q < size -> ~ list_entry_fits bs q -> forall n d, good img true d ->
    iterate (with_dev alist_next) n (ALNonResident v, d) = repeat (Some (Err (le_error bs q (disk_position cs l q)))) n.
  Proof.
    intros Ha Hq Hf. induction n as [|n IH]; intros d Hg; [reflexivity|]. cbn [iterate repeat]. unfold with_dev at 1. cbn [fst snd].
    destruct (proj2 (proj2 (alist_next_nonres q v d Ha Hg ltac:(lia))) ltac:(lia) Hf) as (d' & E & G). rewrite E. now rewrite IH.
  Qed.

  Lemma alist_nonres_walk q offs e : list_walk bs q offs e -> 0 <= q <= size -> forall v d, nr_at q v -> good img true d -> exists es x,
    Forall2 (fun o v => decodes_list_entry bs o v /\ le_position v = disk_position cs l o) (with_cut offs e) es /\
    forall n, iterate (with_dev alist_next) (length (with_cut offs e) + n) (ALNonResident v, d) =
      map (fun v => Some (Ok v)) es ++ repeat (after_list e x) n.
  Proof.
    pose proof (content_size cs img l size Hv Hsize) as Hcs.
    induction 1 as [o H0|o H1 H2|o H1 H2 H3|o offs e H1 H2 H3 W IH]; intros Ho v d Ha Hg.
    - exists [], (EIo OtherIo). split; [constructor|]. intros n. cbn [with_cut length Nat.add map app]. apply (nonres_end o); auto. lia.
    - exists []. eexists. split; [constructor|]. intros n. cbn [with_cut length Nat.add map app]. apply (nonres_error o); auto. lia.
    - destruct (proj1 (proj2 (alist_next_nonres o v d Ha Hg ltac:(lia))) ltac:(lia) H2) as (e & d' & v' & D & Dp & E & G & A).
      exists [e], (EIo OtherIo). split; [constructor; auto; constructor|]. intros n. cbn [with_cut length Nat.add map app iterate]. unfold with_dev at 1. cbn [fst snd].
      rewrite E. f_equal. apply (nonres_end _ _ A). lia.
    - destruct (proj1 (proj2 (alist_next_nonres o v d Ha Hg ltac:(lia))) ltac:(lia) H2) as (e1 & d' & v' & D & Dp & E & G & A).
      pose proof (field2_bound bs (o + 4) Hb) as B2. fold (lentry_len bs o) in B2.
      destruct (IH ltac:(lia) v' d' A G) as (es & x & F & It). exists (e1 :: es), x.
      assert (Hc : with_cut (o :: offs) e = o :: with_cut offs e) by (destruct e; reflexivity). rewrite Hc.
      split; [constructor; auto|]. intros n. cbn [length Nat.add map app iterate].
      unfold with_dev at 1. cbn [fst snd]. rewrite E. now rewrite It.
  Qed.

  Lemma alist_nonresident v d : nr_new cs enc p size = Ok v -> faultless d -> d_img d = img ->
    exists offs e es x, list_walk bs 0 offs e /\ 26 * zlen offs <= size /\
    Forall2 (fun o v => decodes_list_entry bs o v /\ le_position v = disk_position cs l o) (with_cut offs e) es /\
    (forall n, iterate (with_dev alist_next) (length (with_cut offs e) + n) (ALNonResident v, d) =
      map (fun v => Some (Ok v)) es ++ repeat (after_list e x) n).
  Proof.
    intros Hn Hf Hi. pose proof (content_size cs img l size Hv Hsize) as Hcs.
    assert (HU : 0 <= size <= U64_MAX) by (unfold U16_MAX in *; lia).
    destruct (list_walk_exists bs Hb (length bs) 0) as (offs & e & W); [lia|unfold zlen; lia|].
    destruct (alist_nonres_walk 0 offs e W ltac:(lia) v d) as (es & x & F & It).
    { destruct (nr_extents_new cs img l enc p size Hv He) as (v0 & E0 & I0 & P0 & _). assert (v0 = v) by congruence. subst v0. split; auto. split; auto.
      intros _. eapply nr_fresh_position; eauto. }
    { split; auto. }
    exists offs, e, es, x. split; auto. split; [pose proof (list_walk_bound _ _ _ _ Hb W ltac:(lia)); lia|]. split; auto.
  Qed.
End NonRes.

(** ** The property lemmas *)
Lemma alist_next_resident_dev bs p d : exists bs' p' x, alist_next (ALResident bs p) d = (d, (ALResident bs' p', x)).
Proof.
  unfold alist_next. destruct bs as [|b t]; [eauto|]. destruct (snd (snd _)) as [e|x| |]; eauto. destruct (_ <=? _); eauto.
Qed.
Lemma alist_resident_dev n : forall bs p d, snd (iterate_state (with_dev alist_next) n (ALResident bs p, d)) = d.
Proof.
  induction n as [|n IH]; intros bs p d; [reflexivity|]. cbn [iterate_state]. unfold with_dev at 2. cbn [fst snd].
  destruct (alist_next_resident_dev bs p d) as (bs' & p' & x & ->). cbn [fst]. apply IH.
Qed.

Lemma alist_resident_value bs p d : bytes_ok bs -> zlen bs <= U64_MAX -> position_sane p (zlen bs) ->
  exists offs e es x, list_walk bs 0 offs e /\ 26 * zlen offs <= zlen bs /\
    Forall2 (fun o v => decodes_list_entry bs o v /\ le_position v = pos_add p o) offs es /\
    (forall n, iterate (with_dev alist_next) (length offs + n) (alist_of_sval (SVRes (res_new bs p)), d) =
      map (fun v => Some (Ok v)) es ++ repeat (after_list e x) n) /\
    (forall n, snd (iterate_state (with_dev alist_next) n (alist_of_sval (SVRes (res_new bs p)), d)) = d).
Proof.
  intros Hb Hl Hp. pose proof (zlen_nonneg bs).
  assert (E : alist_of_sval (SVRes (res_new bs p)) = ALResident bs p).
  { cbn [alist_of_sval res_new rv_data]. f_equal. unfold res_data_position, res_new, res_len. cbn [rv_sp rv_data rv_position].
    replace (0 <=? zlen bs) with true by lia. apply (pos_add_0 p (zlen bs)); auto. }
  rewrite E. destruct (alist_resident bs p Hb Hl Hp d) as (offs & e & es & x & H1 & H2 & H3 & H4). exists offs, e, es, x.
  split; auto. split; auto. split; auto. split; auto. intros n. apply alist_resident_dev.
Qed.

Lemma list_walk_facts bs o offs e : list_walk bs o offs e ->
  (forall offs' e', list_walk bs o offs' e' -> offs = offs' /\ e = e') /\
  (forall a l2, offs = a :: l2 -> a = o) /\
  (forall l1 a b l2, offs = l1 ++ a :: b :: l2 -> b = a + lentry_len bs a).
Proof.
  intros W. split; [now apply list_walk_det|].
  assert (F : forall o offs e, list_walk bs o offs e -> forall a l2, offs = a :: l2 -> a = o).
  { intros o1 offs1 e1 W1. inversion W1; subst; intros a l2 Ha; try discriminate. congruence. }
  split; [eauto|]. induction W as [| | |o offs e H1 H2 H3 W IH]; intros l1 a b l2 E; try (destruct l1; discriminate).
  destruct l1 as [|c l1]; injection E as -> E; [|eauto]. eapply F; eauto.
Qed.

(** A function that computes walks, for examples. *)
Fixpoint lwalk (k : nat) (bs : list Z) (o : Z) : option (list Z * list_end) :=
  match k with
  | O => None
  | Datatypes.S k' =>
      if o =? zlen bs then Some ([], ListDone)
      else if zlen bs <? o then None
      else if negb ((o + 26 + lentry_name_bytes bs o <=? zlen bs) && (26 + lentry_name_bytes bs o <=? lentry_len bs o)) then Some ([], ListMalformed)
      else if zlen bs <? o + lentry_len bs o then Some ([], ListCut o)
      else match lwalk k' bs (o + lentry_len bs o) with Some (l, e) => Some (o :: l, e) | None => None end
  end.
Lemma lwalk_ok k : forall bs o l e, lwalk k bs o = Some (l, e) -> list_walk bs o l e.
Proof.
  induction k as [|k IH]; intros bs o l e H; [discriminate|]. cbn [lwalk] in H.
  destruct (o =? zlen bs) eqn:E1; [injection H as <- <-; apply lw_done; lia|].
  destruct (zlen bs <? o) eqn:E2; [discriminate|].
  destruct ((o + 26 + lentry_name_bytes bs o <=? zlen bs) && (26 + lentry_name_bytes bs o <=? lentry_len bs o)) eqn:E3; cbn [negb] in H.
  2: { injection H as <- <-. apply lw_malformed; [lia|]. unfold list_entry_fits. lia. }
  assert (list_entry_fits bs o) by (unfold list_entry_fits; lia).
  destruct (zlen bs <? o + lentry_len bs o) eqn:E4; [injection H as <- <-; apply lw_cut; auto; lia|].
  destruct (lwalk k bs (o + lentry_len bs o)) as [[l' e']|] eqn:E5; [|discriminate]. injection H as <- <-. apply lw_entry; auto; lia.
Qed.
