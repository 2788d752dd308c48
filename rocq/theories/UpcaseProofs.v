(** * Loading the upper case table. *)
From Verif Require Import Base Dev Types Record DataRuns Stream NonResident Resident Attribute File Guid Structured AttrList Upcase
  Spec SpecMisc SpecValues BaseProofs DevProofs StreamProofs ReaderProofs ResidentProofs NonResidentProofs AttributeProofs FileProofs StructuredProofs
  ValueProofs MiscProofs AttrListProofs ReadLenProofs.
From Coq Require Import Lia.

Lemma units_length bs : forall n, length bs = (2 * n)%nat -> length (units bs) = n.
Proof.
  induction bs as [bs IH] using (well_founded_induction (well_founded_ltof _ (@length Z))). intros n H.
  destruct bs as [|lo [|hi bs]]; cbn [units length] in *; try lia. rewrite (IH bs ltac:(unfold ltof; cbn; lia) (n - 1)%nat); lia.
Qed.

Lemma units_zlen bs n : zlen bs = 2 * n -> zlen (units bs) = n.
Proof. unfold zlen. intros H. rewrite (units_length bs (Z.to_nat n)); lia. Qed.

Lemma units_nth bs : forall i, 0 <= i -> 2 * i + 2 <= zlen bs -> nth (Z.to_nat i) (units bs) 0 = field 2 bs (2 * i).
Proof.
  induction bs as [bs IH] using (well_founded_induction (well_founded_ltof _ (@length Z))). intros i Hi H.
  destruct bs as [|lo [|hi bs]]; unfold zlen in H; cbn [length] in H; try lia. cbn [units].
  destruct (Z.eq_dec i 0) as [->|Hi0].
  - change (lo + 256 * hi = lo + 256 * (hi + 256 * le_val (ztake 0 bs))). rewrite ztake_0 by lia. cbn [le_val]. lia.
  - replace (Z.to_nat i) with (S (Z.to_nat (i - 1))) by lia. cbn [nth]. rewrite IH; [|unfold ltof; cbn; lia|lia|unfold zlen; lia].
    unfold field, slice. f_equal. replace (2 * i + 2 - 2 * i) with (2 * (i - 1) + 2 - 2 * (i - 1)) by lia. f_equal.
    cbn [zdrop]. replace (2 * i <=? 0) with false by lia. replace (2 * i - 1 <=? 0) with false by lia. f_equal. lia.
Qed.

Lemma attr_value_length_content cs img f o e bs : bytes_ok (f_data f) -> 0 <= o -> attr_fits (f_data f) o -> attr_content cs img (f_data f) o bs ->
  attr_value_length (mkAttr f o e) = Ok (zlen bs).
Proof.
  intros Hb Ho Hf Hc. unfold attr_value_length, attr_is_resident. pose proof Hf as (F1 & F2 & F3). rewrite attr_rd_in by lia. cbn [rbind].
  destruct Hc as [bs' Hr Hl Hv|l Hr Hl Hro Hv He Hs].
  - unfold attr_resident_at in Hr. rewrite Hr. cbn [Z.eqb]. unfold attr_resident_value_length. rewrite attr_rd_in by lia.
    destruct Hv as (Hv & ->). pose proof (field2_bound (f_data f) (o + 20) Hb). pose proof (field4_bound (f_data f) (o + 16) Hb).
    rewrite slice_len by lia. f_equal. lia.
  - unfold attr_resident_at in Hr. destruct (_ =? 0) eqn:E; [lia|]. unfold attr_nr_data_size. rewrite attr_rd_in by lia. f_equal.
    pose proof (field8_bound (f_data f) (o + 48) Hb). rewrite (content_size cs img l) by (auto; lia). reflexivity.
Qed.

Section Load.
  Context (nt : ntfs) (d d1 : dev) (f : file) (offs : list Z) (clean : bool) (fuel : nat).
  Context (Hfile : ntfs_file nt 10 d = (d1, Ok f)) (Hb : bytes_ok (f_data f)) (Hlen : 22 <= zlen (f_data f))
    (W : attr_walk (f_data f) (field 2 (f_data f) 20) offs clean) (Hno : no_attribute_list (f_data f) offs) (Hfuel : (length offs < fuel)%nat).

  Lemma unnamed_first l1 o l2 : offs = l1 ++ o :: l2 -> Forall (not_stream (f_data f) [] []) l1 -> is_stream (f_data f) [] [] o ->
    file_data fuel nt f [] d1 = (d1, Ok (Some (mkItem f None o None))).
  Proof.
    intros Ho Hl1 Hs. destruct (file_data_spec nt f [] [] offs clean Hb Hlen W Hno (or_introl eq_refl) fuel d1 Hfuel) as (r & E & Hr).
    assert (Huniq : forall l1' o' l2' (P : Z -> Prop), (forall x, P x -> ~ not_stream (f_data f) [] [] x) ->
              offs = l1' ++ o' :: l2' -> Forall (not_stream (f_data f) [] []) l1' -> P o' -> o' = o).
    { intros l1' o' l2' P HP Ho' Hl1' Hp. rewrite Ho in Ho'. clear -Ho' Hl1 Hl1' HP Hp Hs. revert l1' Ho' Hl1'.
      induction l1 as [|x l1 IH]; intros [|y l1'] Heq H1; cbn in Heq; injection Heq as -> Heq; auto.
      - apply Forall_inv in H1. destruct (stream_name_exclusive (f_data f) [] [] None None y) as (X & _). tauto.
      - apply Forall_inv in Hl1. exfalso. exact (HP _ Hp Hl1).
      - apply (IH (Forall_inv_tail Hl1) l1' Heq (Forall_inv_tail H1)). }
    assert (Hin : In o offs) by (rewrite Ho; apply in_elt).
    rewrite E. f_equal. destruct r as [[i|]|y| |]; try contradiction.
    - destruct Hr as (l1' & o' & l2' & H1 & H2 & H3 & ->). rewrite (Huniq l1' o' l2' (is_stream (f_data f) [] [])); auto.
      intros x Hx Hx'. destruct (stream_name_exclusive (f_data f) [] [] None None x) as (X & _). tauto.
    - exfalso. destruct Hr as (_ & H). rewrite Forall_forall in H. specialize (H o Hin).
      destruct (stream_name_exclusive (f_data f) [] [] None None o) as (X & _). tauto.
    - exfalso. destruct Hr as [(_ & H)|(l1' & o' & l2' & H1 & H2 & H3)].
      + rewrite Forall_forall in H. specialize (H o Hin). destruct (stream_name_exclusive (f_data f) [] [] None None o) as (X & _). tauto.
      + assert (o' = o). { apply (Huniq l1' o' l2' (malformed_stream (f_data f))); auto. intros x Hx Hx'.
          destruct (stream_name_exclusive (f_data f) [] [] None None x) as (_ & X & _). tauto. }
        subst o'. destruct (stream_name_exclusive (f_data f) [] [] None None o) as (_ & X & _). tauto.
  Qed.

  Lemma upcase_load img l1 o l2 bs : offs = l1 ++ o :: l2 -> Forall (not_stream (f_data f) [] []) l1 -> is_stream (f_data f) [] [] o ->
    faultless d1 -> d_img d1 = img -> attr_content (cluster_size nt) img (f_data f) o bs ->
    (zlen bs = 131072 -> exists t, snd (upcase_read fuel nt d) = Ok t /\ zlen t = 65536 /\
       forall i, 0 <= i < 65536 -> nth (Z.to_nat i) t 0 = field 2 bs (2 * i)) /\
    (zlen bs <> 131072 -> snd (upcase_read fuel nt d) = Err (EInvalidUpcaseTableSize 131072 (zlen bs))).
  Proof.
    intros Ho Hl1 Hst Hd Hi Hc. pose proof (unnamed_first l1 o l2 Ho Hl1 Hst) as E.
    assert (Hs : 0 <= field 2 (f_data f) 20) by (apply field_nonneg; auto).
    pose proof W as W'. rewrite Ho in W'. destruct (walk_fits f _ _ _ _ _ W' Hs) as (Ho0 & Hfit).
    assert (Eu : upcase_read fuel nt d = (if negb (zlen bs =? 131072) then mlift (Err (EInvalidUpcaseTableSize 131072 (zlen bs)))
      else do v <- attr_value nt (mkAttr f o None); fun d => match rs_read_exact (av_read fuel) v 131072 d with
        | (d', (_, Ok data)) => (d', Ok (units data)) | (d', (_, Err e)) => (d', Err e) | (d', (_, Panic)) => (d', Panic) | (d', (_, OutOfFuel)) => (d', OutOfFuel) end) d1).
    { unfold upcase_read. unfold mbind at 1. rewrite Hfile. unfold mbind at 1. rewrite E. unfold mbind at 1, mlift at 1. unfold mbind at 1, mlift at 1.
      unfold item_to_attribute. cbn [ai_value_file ai_file ai_offset ai_entries]. rewrite (proj1 (attr_new_spec f o None Ho0) Hfit).
      unfold mbind at 1, mlift at 1. rewrite (attr_value_length_content (cluster_size nt) img f o None bs Hb Ho0 Hfit Hc). reflexivity. }
    rewrite Eu. clear Eu.
    split.
    - intros Hz. rewrite Hz. cbn [Z.eqb Pos.eqb negb].
      unfold attr_value. cbn [at_entries]. unfold mbind, mlift, mret.
      destruct (attr_content_value _ _ _ _ None _ Hb Ho0 Hfit Hc) as (v & Ev & Hv). rewrite Ev.
      destruct (value_of_reads _ _ v bs Hv) as (_ & _ & Hp & I & HI & R).
      pose proof (refines_map AVSimple _ _ _ _ _ _ _ (av_read fuel) (av_seek fuel) av_stream_position R ltac:(reflexivity) ltac:(reflexivity) ltac:(reflexivity)) as R'.
      destruct (refines_read_exact _ _ _ _ _ _ _ R' (AVSimple v) d1 131072) as (d' & s' & _ & _ & [(Hle & Er & _)|[(Hlt & _)|(Hbad & _)]]);
        [eauto|split; auto|lia| |cbn in Hp, Hlt; lia|lia].
      rewrite Er. eexists. split; [reflexivity|]. cbn [av_stream_position]. rewrite Hp, zdrop_0, ztake_all by lia. split.
      + apply units_zlen. lia.
      + intros i Hi'. apply units_nth; lia.
    - intros Hz. replace (zlen bs =? 131072) with false by lia. reflexivity.
  Qed.

  Lemma upcase_missing : clean = true -> Forall (not_stream (f_data f) [] []) offs -> snd (upcase_read fuel nt d) = Err (EAttributeNotFound (f_position f) 128).
  Proof.
    intros Hc Hall. destruct (file_data_spec nt f [] [] offs clean Hb Hlen W Hno (or_introl eq_refl) fuel d1 Hfuel) as (r & E & Hr).
    unfold upcase_read. unfold mbind at 1. rewrite Hfile. unfold mbind at 1. rewrite E. destruct r as [[i|]|x| |]; try contradiction.
    - exfalso. destruct Hr as (l1' & o' & l2' & -> & H2 & H3 & ->). rewrite Forall_forall in Hall. specialize (Hall o' (in_elt _ _ _)).
      destruct (stream_name_exclusive (f_data f) [] [] None None o') as (X & _). tauto.
    - reflexivity.
    - exfalso. destruct Hr as [(H & _)|(l1' & o' & l2' & -> & H2 & H3)]; [congruence|]. rewrite Forall_forall in Hall. specialize (Hall o' (in_elt _ _ _)).
      destruct (stream_name_exclusive (f_data f) [] [] None None o') as (_ & X & _). tauto.
  Qed.
End Load.

Lemma upcase_sound fuel nt d t : snd (upcase_read fuel nt d) = Ok t -> zlen t = 65536.
Proof.
  unfold upcase_read. unfold mbind at 1. destruct (ntfs_file nt 10 d) as [d1 [f|x| |]]; try discriminate.
  unfold mbind at 1. destruct (file_data fuel nt f [] d1) as [d2 [x|x| |]]; try discriminate.
  unfold mbind at 1, mlift at 1. destruct (match x with Some i => Ok i | None => _ end) as [i|e| |]; try discriminate.
  unfold mbind at 1, mlift at 1. destruct (item_to_attribute i) as [a|e| |]; try discriminate.
  unfold mbind at 1, mlift at 1. destruct (attr_value_length a) as [len|e| |]; try discriminate.
  destruct (negb (len =? UPCASE_TABLE_SIZE)); [discriminate|].
  unfold mbind. destruct (attr_value nt a d2) as [d3 [v|e| |]]; try discriminate.
  destruct (rs_read_exact (av_read fuel) v UPCASE_TABLE_SIZE d3) as [d4 [v4 [bs|e| |]]] eqn:E; try discriminate. cbn [snd]. intros [= <-].
  apply rs_read_exact_length in E; [|apply av_read_at_most|unfold UPCASE_TABLE_SIZE; lia]. apply units_zlen. exact E.
Qed.

Lemma read_upcase_ok fuel nt d nt' : snd (read_upcase_table fuel nt d) = Ok nt' ->
  exists t, snd (upcase_read fuel nt d) = Ok t /\ upcase_table nt' = Some t /\ zlen t = 65536 /\
    cluster_size nt' = cluster_size nt /\ sector_size nt' = sector_size nt /\ ntfs_size nt' = ntfs_size nt /\ mft_position nt' = mft_position nt /\
    file_record_size nt' = file_record_size nt /\ serial_number nt' = serial_number nt.
Proof.
  unfold read_upcase_table, mbind, mret. pose proof (upcase_sound fuel nt d) as Hs. destruct (upcase_read fuel nt d) as [d' [t|x| |]]; try discriminate.
  cbn [snd] in *. intros [= <-]. exists t. cbn. rewrite (Hs t eq_refl). repeat split; auto.
Qed.
Lemma read_upcase_err fuel nt d : (forall t, snd (upcase_read fuel nt d) <> Ok t) -> forall nt', snd (read_upcase_table fuel nt d) <> Ok nt'.
Proof. intros H nt' E. destruct (read_upcase_ok fuel nt d nt' E) as (t & Ht & _). now apply (H t). Qed.
