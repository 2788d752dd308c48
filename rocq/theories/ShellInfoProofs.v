(** * What the example program prints about attributes, files and volumes. *)
From Verif Require Import Base Dev Types Record DataRuns Stream NonResident Resident BootSector Attribute File Structured AttrList Upcase Index Time Volume Shell
  Spec SpecMisc SpecValues SpecIndex SpecAttrList SpecInfo BaseProofs DevProofs ReaderProofs RecordProofs DataRunsProofs StreamProofs NonResidentProofs BootSectorProofs AttributeProofs FileProofs
  StructuredProofs ValueProofs AttrListProofs MiscProofs NodeProofs IndexProofs DirectoryProofs NameFindProofs EvolveProofs AttrListIterProofs AttrListValueProofs FlatProofs FlatSearchProofs.
From Coq Require Import Lia.

(** ** Printing *)
Lemma pbind_lift {A B} (a : A) (f : A -> P B) d : pbind (plift (Ok a)) f d = f a d.
Proof. unfold pbind, plift. destruct (f a d) as [d2 [l2 r]]. reflexivity. Qed.
Lemma pbind_ret {A B} (a : A) (f : A -> P B) d : pbind (pret a) f d = f a d.
Proof. apply pbind_lift. Qed.
Lemma pbind_pm {A B} (m : M A) (f : A -> P B) d d1 a : m d = (d1, Ok a) -> pbind (pm m) f d = f a d1.
Proof. intros E. unfold pbind, pm. rewrite E. destruct (f a d1) as [d2 [l2 r]]. reflexivity. Qed.
Lemma pbind_print {A} x (f : unit -> P A) d d1 ls r : f tt d = (d1, (ls, r)) -> pbind (print x) f d = (d1, (x :: ls, r)).
Proof. intros E. unfold pbind, print. rewrite E. reflexivity. Qed.
Lemma pbind_ok {A B} (m : P A) (f : A -> P B) d d1 l1 a d2 l2 r : m d = (d1, (l1, Ok a)) -> f a d1 = (d2, (l2, r)) -> pbind m f d = (d2, (l1 ++ l2, r)).
Proof. intros E F. unfold pbind. rewrite E, F. reflexivity. Qed.

(** ** Data runs *)
Lemma run_of_position cs e : 1 <= cs -> extent_fits cs e -> e_lcn e <> Some 0 ->
  run_data_position (run_of cs e) = match e_lcn e with Some lcn => Some (lcn * cs) | None => None end.
Proof.
  intros Hcs (H1 & H2 & H3) H0. unfold run_data_position, run_of. cbn [r_sp r_alloc r_pos]. replace (0 <=? e_count e * cs) with true by nia.
  destruct (e_lcn e) as [lcn|]; [|reflexivity]. cbn [pos_add]. rewrite Z.add_0_r. rewrite Z.mod_small by (unfold TWO64, U64_MAX in *; nia).
  unfold pos_new. replace (lcn * cs =? 0) with false; auto. assert (lcn <> 0) by congruence. symmetry. apply Z.eqb_neq. nia.
Qed.
Lemma distinct_nonzero l : forall prev, lcns_distinct prev l -> Forall (fun e => e_lcn e <> Some 0) l.
Proof.
  induction l as [|[[lcn|] c] l IH]; intros prev H; cbn [lcns_distinct] in H; constructor; cbn [e_lcn].
  - intros [= ->]. tauto.
  - eapply IH. apply H.
  - discriminate.
  - eauto.
Qed.
Lemma run_lines_yields cs data p inner d : 1 <= cs -> forall l s k i, yields cs data p s (map (run_of cs) l) -> Forall (extent_fits cs) l ->
  Forall (fun e => e_lcn e <> Some 0) l -> (length l < k)%nat -> run_lines k cs data p inner i s d = (d, (extent_lines cs inner i l, Ok tt)).
Proof.
  intros Hcs. induction l as [|e l IH]; intros s [|k] i Y Hf Hn Hk; cbn [length] in Hk; try lia; cbn [map] in Y; inversion Y as [? s' E _|? s' ? ? E Y']; subst; cbn [run_lines]; rewrite E.
  - reflexivity.
  - rewrite pbind_lift. cbn [extent_lines]. apply Forall_inv in Hf as F0. apply Forall_inv in Hn as N0. rewrite run_of_position by auto.
    cbn [run_of r_alloc]. erewrite pbind_print; [reflexivity|]. apply IH; auto; [now inversion Hf|now inversion Hn|lia].
Qed.
Lemma run_lines_spec cs enc p inner l d k : 1 <= cs -> encodes 0 l enc -> lcns_distinct 0 l -> Forall (extent_fits cs) l -> (length l < k)%nat ->
  run_lines k cs enc p inner 0 druns_start d = (d, (extent_lines cs inner 0 l, Ok tt)).
Proof.
  intros Hcs He Hd Hf Hk. eapply run_lines_yields; eauto; [|eapply distinct_nonzero; eauto].
  exact (encodes_yields cs p Hcs 0 l enc He [] ltac:(unfold U64_MAX; lia) Hd Hf).
Qed.
Lemma nr_new_encoded cs enc p size l : 1 <= cs -> encodes 0 l enc -> lcns_distinct 0 l -> Forall (extent_fits cs) l ->
  exists v, nr_new cs enc p size = Ok v /\ nv_cs v = cs /\ nv_data v = enc /\ nv_position v = p.
Proof.
  intros Hcs He Hd Hf. pose proof (encodes_yields cs p Hcs 0 l enc He [] ltac:(unfold U64_MAX; lia) Hd Hf) as Y.
  change (yields cs enc p druns_start (map (run_of cs) l)) in Y. unfold nr_new, nr_next_data_run. cbn [nv_cs nv_data nv_position nv_runs].
  inversion Y as [? s' E _|? s' ? ? E Y']; rewrite E; eexists; (split; [reflexivity|auto]).
Qed.

(** ** An attribute *)
Lemma std_info_exists bs : 48 <= zlen bs -> exists v, decodes_std_info bs v.
Proof.
  intros H. exists (si1_of_bytes bs (if 72 <=? zlen bs then Some (si3_of_bytes (slice bs 36 72)) else None)). unfold si1_of_bytes, si3_of_bytes.
  split; cbn [si_creation_time si_modification_time si_mft_record_modification_time si_access_time si_ntfs3 si_file_attributes si_attributes]; auto; try lia.
  - intros i Hi. unfold si_file_attributes. cbn [si_attributes]. now apply file_flags_bits.
  - intros K. replace (72 <=? zlen bs) with false by lia. reflexivity.
  - intros K. replace (72 <=? zlen bs) with true by lia. eexists. split; [reflexivity|]. cbn. rewrite !field_slice by lia. auto 10.
Qed.
Lemma pos_add_sane p len o : 0 < p -> p + len <= TWO64 -> 0 <= o -> o < len -> pos_add (Some p) o = Some (p + o).
Proof.
  intros. cbn [pos_add]. rewrite Z.mod_small by (unfold TWO64, U64_MAX in *; lia). unfold pos_new. replace (p + o =? 0) with false by lia. reflexivity.
Qed.

Section Attribute.
  Context (nt : ntfs) (f : file) (p : Z).
  Notation data := (f_data f).
  Context (Hb : bytes_ok data) (Hcs : 1 <= cluster_size nt) (Hfp : f_position f = Some p) (Hp : 0 < p) (Hpl : p + zlen data <= TWO64).

  Lemma name_units o e bs : 0 <= o -> attr_fits data o -> attr_name_at data o bs -> attr_name (mkAttr f o e) = Ok bs /\ utf16 bs (units bs).
  Proof.
    intros Ho Hf Hn. destruct (attr_name_spec f Hb o e Ho Hf) as [(bs' & E & Hn')|(x & E & Hno)]; [|now destruct (Hno bs)].
    pose proof (name_at_fun _ _ _ _ Hn Hn'); subst bs'. split; auto. apply units_utf16; auto. exact (attr_name_even f Hb o bs Ho Hf Hn).
  Qed.
  Lemma value_length_spec o e : 0 <= o -> attr_fits data o -> (if field 1 data (o + 8) =? 0 then o + 20 <= zlen data else o + 56 <= zlen data) ->
    attr_value_length (mkAttr f o e) = Ok (if field 1 data (o + 8) =? 0 then field 4 data (o + 16) else field 8 data (o + 48)).
  Proof.
    intros Ho (F1 & F2 & F3) Hl. unfold attr_value_length, attr_is_resident, attr_resident_value_length, attr_nr_data_size.
    pose proof (attr_rd_in f 1 o 8 e Ho ltac:(lia) ltac:(lia) ltac:(lia)) as E. rewrite E. cbn [rbind]. 
    destruct (field 1 data (o + 8) =? 0).
    - apply attr_rd_in; try lia; lia.
    - apply attr_rd_in; try lia; lia.
  Qed.

  Lemma attr_print_spec runs inner n o : 0 <= o -> attr_fits data o -> attr_whole (cluster_size nt) data o ->
    exists N ls, attribute_lines (cluster_size nt) runs inner n p data o ls /\
      forall fuel d, (N <= fuel)%nat -> attr_print fuel nt runs inner n (mkAttr f o None) d = (d, (ls, Ok tt)).
  Proof.
    intros Ho Hf [Ht (bs & Hn) Hres Hext]. pose proof Hf as (F1 & F2 & F3). unfold attr_len_at in F2, F3.
    destruct (name_units o None bs Ho Hf Hn) as (En & Hu).
    assert (El : attr_value_length (mkAttr f o None) = Ok (if field 1 data (o + 8) =? 0 then field 4 data (o + 16) else field 8 data (o + 48))).
    { apply value_length_spec; auto. unfold attr_resident_at in *. destruct (field 1 data (o + 8) =? 0) eqn:E; [destruct Hres; lia|destruct Hext; lia]. }
    assert (Ei : attr_instance (mkAttr f o None) = Ok (attr_instance_at data o)).
    { unfold attr_instance, attr_instance_at. apply attr_rd_in; try lia; lia. }
    assert (Er : attr_is_resident (mkAttr f o None) = Ok (field 1 data (o + 8) =? 0)).
    { unfold attr_is_resident. rewrite attr_rd_in; try lia; try lia. reflexivity. }
    assert (Et : attr_ty (mkAttr f o None) = Ok (attr_type_at data o)) by (apply (attr_ty_spec f o None Ho Hf); exact Ht).
    assert (Epos : attr_position (mkAttr f o None) = Some (p + o)) by (unfold attr_position; cbn [at_file at_offset]; rewrite Hfp; apply (pos_add_sane p (zlen data)); auto; lia).
    set (x := LAttribute inner (attr_instance_at data o) (attr_type_at data o) (field 1 data (o + 8) =? 0) n (Some (p + o))
          (if field 1 data (o + 8) =? 0 then field 4 data (o + 16) else field 8 data (o + 48)) (units bs)).
    assert (Hx : attribute_line inner n p data o x) by (exists bs, (units bs); auto).
    assert (Hpre : forall fuel d d1 ls r,
      (if runs then pdo v <- pm (attr_value nt (mkAttr f o None));
         match v with
         | AVSimple (SVNr x) => run_lines fuel (nv_cs x) (nv_data x) (nv_position x) inner 0 druns_start
         | _ => pret tt
         end else pret tt) d = (d1, (ls, r)) -> attr_print fuel nt runs inner n (mkAttr f o None) d = (d1, (x :: ls, r))).
    { intros fuel d d1 ls r E. unfold attr_print. rewrite Ei, pbind_lift, Et, pbind_lift, Er, pbind_lift, El, pbind_lift, En, pbind_lift, Epos.
      apply pbind_print. exact E. }
    destruct runs.
    - destruct (field 1 data (o + 8) =? 0) eqn:E0.
      + assert (Hr : attr_resident_at data o) by (unfold attr_resident_at; lia). destruct (Hres Hr) as (H22 & bv & Hv).
        destruct (attr_resident_value_spec f Hb o None Ho Hf H22) as [(bs2 & Ev & _)|(y & _ & Hno)]; [|now destruct (Hno bv)].
        exists 0%nat, [x]. split; [apply al_plain; auto|]. intros fuel d _. apply Hpre. erewrite pbind_pm.
        2: { unfold attr_value. cbn [at_entries]. unfold mbind, mlift, mret. unfold attr_value_simple. rewrite Er. cbn [rbind]. rewrite Ev. reflexivity. }
        reflexivity.
      + assert (Hr : ~ attr_resident_at data o) by (unfold attr_resident_at; lia). destruct (Hext Hr) as (H56 & Hro & l & He & Hd & Hfit).
        exists (S (length l)), (x :: extent_lines (cluster_size nt) inner 0 l). split; [apply al_extents; auto|]. intros fuel d Hfu. apply Hpre.
        pose proof (attr_value_extents f (cluster_size nt) o None Hb Ho Hf H56 Hr Hro) as Ev.
        destruct (nr_new_encoded (cluster_size nt) _ (pos_add (f_position f) (o + field 2 data (o + 32))) (field 8 data (o + 48)) l Hcs He Hd Hfit) as (v & Enew & V1 & V2 & V3).
        erewrite pbind_pm.
        2: { unfold attr_value. cbn [at_entries]. unfold mbind, mlift, mret. rewrite Ev.  rewrite Enew. reflexivity. }
        cbn beta iota. rewrite V1, V2, V3. apply run_lines_spec; auto.
    - exists 0%nat, [x]. split; [apply al_plain; auto|]. intros fuel d _. apply Hpre. reflexivity.
  Qed.

  (** What [fileinfo] prints. *)
  Lemma info_spec o e : 0 <= o -> attr_fits data o -> info_whole data o -> (attr_resident_at data o -> e = None) ->
    exists ls, info_line data o ls /\ forall fuel d, attribute_info fuel nt (mkAttr f o e) d = (d, (ls, Ok tt)).
  Proof.
    intros Ho Hf [Hstd Hname Hstr] He.
    assert (Et : attr_ty (mkAttr f o e) = if known_type (attr_type_at data o) then Ok (attr_type_at data o) else attr_ty (mkAttr f o e)).
    { destruct (known_type (attr_type_at data o)) eqn:E; auto. apply known_type_spec in E. now apply (attr_ty_spec f o e Ho Hf). }
    unfold attribute_info. destruct (known_type (attr_type_at data o)) eqn:Ek.
    2: { destruct (attr_ty_spec f o e Ho Hf) as (_ & E2). rewrite E2 by (intros K; apply known_type_spec in K; congruence).
      assert (Hn : forall t, type_known t -> attr_type_at data o <> t) by (intros t K E; apply known_type_spec in K; congruence).
      exists []. split; [|reflexivity]. apply il_other; apply Hn; cbn; auto 20. }
    rewrite Et. unfold TY_StandardInformation, TY_FileName, TY_Data.
    destruct (attr_type_at data o =? 16) eqn:E16; [|destruct (attr_type_at data o =? 48) eqn:E48; [|destruct (attr_type_at data o =? 128) eqn:E128]].
    - assert (T : attr_type_at data o = 16) by lia. destruct (Hstd T) as (Hr & H22 & bs & Hv & H48).
      pose proof (proj1 (parses_resident _ _ f o e 16 si_parses Hb Ho Hf H22 ltac:(cbn; auto 20)) T Hr bs Hv) as D.
      destruct (resident_len_bound f o bs Hb Ho Hf Hv) as (Hz & Hbs).
      unfold TY_StandardInformation in *. destruct (resident_structured _ 16 (mkAttr f o e)) as [v|x| |] eqn:Ep; cbn [decodes_exactly] in D; try contradiction.
      2: { destruct (std_info_exists bs H48) as (v & D0). destruct (D v D0). }
      eexists. split; [eapply il_standard; eauto|]. intros fuel d. unfold standard_line. unfold TY_StandardInformation. rewrite Ep, pbind_lift.
      pose proof (field8_bound bs 0 Hbs). pose proof (field8_bound bs 8 Hbs). pose proof (field8_bound bs 16 Hbs). pose proof (field8_bound bs 24 Hbs).
      rewrite (dsi_access _ _ D), (dsi_creation _ _ D), (dsi_modification _ _ D), (dsi_mft _ _ D).
      rewrite !datetime_of_time by (unfold U64_MAX in *; lia). rewrite !pbind_lift. reflexivity.
    - assert (T : attr_type_at data o = 48) by lia. destruct (Hname T) as (Hr & H22 & bs & Hv & N1 & N2 & N3). rewrite (He Hr).
      destruct (resident_len_bound f o bs Hb Ho Hf Hv) as (Hz & Hbs). pose proof (field1_bound bs 64 Hbs) as B64.
      exists [LName (units (slice bs 66 (66 + 2 * field 1 bs 64))) (field 1 bs 65) (field 6 bs 0)]. split.
      { eapply il_name; eauto. apply units_utf16; auto. exists (Z.to_nat (field 1 bs 64)). pose proof (slice_len bs 66 (66 + 2 * field 1 bs 64)) as Hl. unfold zlen in *. lia. }
      intros fuel d. destruct (parses_attribute_resident _ _ nt f o 48 bs d fuel fn_parses Hb Ho Hf T ltac:(cbn; auto 20) Hr H22 Hv) as (Hd & Hs).
      pose proof (fn_structured_dev fuel nt f o d (or_introl Hs)) as Hdev. unfold name_line. unfold TY_FileName in *.
      destruct (attr_structured fuel nt _ 48 _ d) as [d' r] eqn:Es. cbn [fst snd] in *. subst d'. destruct r as [v|x| |]; cbn [decodes_exactly] in Hd; try contradiction.
      2: { destruct (file_name_exists bs N1 N2 N3) as (v & D0). destruct (Hd v D0). }
      rewrite (pbind_pm _ _ _ _ _ Es). rewrite (dfn_namespace bs v Hd), pbind_lift, (dfn_parent bs v Hd), fr_number_field by (auto; lia). rewrite (dfn_name _ _ Hd). reflexivity.
    - assert (T : attr_type_at data o = 128) by lia. destruct (Hstr T) as ((bs & Hn) & Hl). destruct (name_units o e bs Ho Hf Hn) as (En & Hu).
      eexists. split; [eapply il_stream; eauto|]. intros fuel d. unfold stream_line. rewrite En, pbind_lift, value_length_spec by auto. rewrite pbind_lift. reflexivity.
    - exists []. split; [apply il_other; lia|reflexivity].
  Qed.
End Attribute.

Lemma disk_position_pos cs img l : valid_extents cs img l -> forall q p, 0 <= q -> disk_position cs l q = Some p -> 0 < p.
Proof.
  intros [Hcs _ Hfit _ Hd] q p Hq. pose proof (distinct_nonzero l 0 Hd) as Hn. clear Hd. revert q Hq. induction l as [|[[lcn|] c] l IH]; intros q Hq; cbn [disk_position e_count e_lcn]; [discriminate|..];
    inversion Hfit as [|? ? (A1 & A2 & A3) Hfit']; subst; inversion Hn as [|? ? B Hn']; subst; cbn [e_count e_lcn] in *.
  - destruct (q <? _) eqn:E; [intros [= <-]; assert (lcn <> 0) by congruence; nia|]. apply IH; auto; lia.
  - destruct (q <? _) eqn:E; [discriminate|]. apply IH; auto; lia.
Qed.

(** ** The attributes of a file *)
Lemma attr_fits_lt data o : attr_fits data o -> o + 16 <= zlen data.
Proof. intros (H & _). lia. Qed.

Lemma Forall2_imp {A B} (R R' : A -> B -> Prop) l1 l2 : (forall a b, R a b -> R' a b) -> Forall2 R l1 l2 -> Forall2 R' l1 l2.
Proof. intros H. induction 1; constructor; auto. Qed.
Lemma Forall2_choose {A B} (R : A -> B -> Prop) l1 : (forall a, In a l1 -> exists b, R a b) -> exists l2, Forall2 R l1 l2.
Proof.
  induction l1 as [|a l1 IH]; intros H; [exists []; constructor|]. destruct (H a (or_introl eq_refl)) as (b & Hb). destruct IH as (l2 & Hl); [intros; apply H; now right|].
  exists (b :: l2). now constructor.
Qed.

Section File.
  Context (gd : dev -> Prop) (nt : ntfs) (data : list Z) (p number : Z).
  Let f : file := mkFile (mkRecord data (Some p)) number.
  Context (Hb : bytes_ok data) (Hcs : 1 <= cluster_size nt) (Hp : 0 < p) (Hpl : p + zlen data <= TWO64).

  (** What the loop prints for one attribute. *)
  Definition attr_step (fuel : nat) (runs : bool) (o : Z) : P unit :=
    pdo _u <- attr_print fuel nt runs false number (mkAttr f o None);
    if attr_type_at data o =? TY_AttributeList
    then pdo v <- plift (attr_value_simple (cluster_size nt) (mkAttr f o None)); list_lines fuel fuel nt runs number (alist_of_sval v)
    else pret tt.
  Lemma attr_loop_spec runs off offs : attr_walk data off offs true -> 0 <= off -> Forall (fun o => type_known (attr_type_at data o)) offs -> forall parts,
    Forall2 (fun o part => exists N, forall fuel d, (N <= fuel)%nat -> gd d -> exists d', gd d' /\ attr_step fuel runs o d = (d', (part, Ok tt))) offs parts ->
    exists N, forall fuel k d, (N <= fuel)%nat -> (length offs < k)%nat -> gd d -> exists d', gd d' /\ attr_loop fuel k nt runs f off d = (d', (concat parts, Ok tt)).
  Proof.
    intros W. remember true as b eqn:Eb. induction W as [off H|off H Hmk|off H Hmk Hf|off offs b Hmk Hf W IH]; intros Ho Hk parts F; destruct (raw_next_spec f off Ho) as (S1 & S2 & S3 & S4); try discriminate.
    - inversion F; subst. exists 0%nat. intros fuel [|k] d _ Hl Hg; [lia|]. cbn [attr_loop]. rewrite S1 by exact H. exists d. auto.
    - inversion F; subst. exists 0%nat. intros fuel [|k] d _ Hl Hg; [lia|]. cbn [attr_loop]. rewrite S2 by auto. exists d. auto.
    - inversion F as [|? part ? parts' (N1 & H1) F']; subst. inversion Hk as [|? ? Hk0 Hk']; subst. pose proof Hf as (F1 & F2 & F3). unfold attr_len_at in *.
      destruct (IH eq_refl ltac:(unfold attr_len_at; lia) Hk' parts' F') as (N2 & H2).
      exists (N1 + N2)%nat. intros fuel [|k] d Hfu Hl Hg; cbn [length] in Hl; [lia|]. cbn [attr_loop]. rewrite S4 by auto. rewrite pbind_lift.
      rewrite (proj1 (attr_ty_spec f off None Ho Hf) Hk0). rewrite pbind_lift. destruct (H1 fuel d ltac:(lia) Hg) as (d1 & G1 & E1).
      destruct (H2 fuel k d1 ltac:(lia) ltac:(lia) G1) as (d2 & G2 & E2). exists d2. split; auto. cbn [concat].
      unfold attr_step, pbind in E1. unfold pbind. change (f_number f) with number. change (f_data f) with data.
      destruct (attr_print fuel nt runs false number (mkAttr f off None) d) as [d3 [l3 [u|x| |]]]; try discriminate.
      change (attr_type_at (f_data f) off) with (attr_type_at data off) in *.
      destruct (attr_type_at data off =? TY_AttributeList).
      + destruct (plift _ d3) as [d4 [l4 [v|x| |]]]; try discriminate. destruct (list_lines fuel fuel nt runs number (alist_of_sval v) d4) as [d5 [l5 [u5|x| |]]]; try discriminate.
        injection E1 as -> <- _. change (attr_len_at (f_data f) off) with (attr_len_at data off). unfold attr_len_at. rewrite E2. now rewrite app_assoc.
      + unfold pret in *. injection E1 as -> <-. change (attr_len_at (f_data f) off) with (attr_len_at data off). unfold attr_len_at. rewrite E2. now rewrite app_nil_r.
  Qed.
  Lemma attr_file_loop fuel runs d : 22 <= zlen data -> attr_file fuel nt runs f d = attr_loop fuel fuel nt runs f (field 2 data 20) d.
  Proof.
    intros H. unfold attr_file. replace (raw_start f) with (Ok (field 2 data 20)); [apply pbind_lift|].
    unfold raw_start, f_first_attribute_offset, rd_u16. symmetry. rewrite rd_in by (change (f_data f) with data; lia). reflexivity.
  Qed.

  Lemma plain_step runs o : 0 <= o /\ attr_fits data o -> attr_whole (cluster_size nt) data o -> attr_type_at data o <> 32 -> exists ls,
    attribute_lines (cluster_size nt) runs false number p data o ls /\
    exists N, forall fuel d, (N <= fuel)%nat -> gd d -> exists d', gd d' /\ attr_step fuel runs o d = (d', (ls, Ok tt)).
  Proof.
    intros (Ho & Hf) Hw Hno. destruct (attr_print_spec nt f p Hb Hcs eq_refl Hp Hpl runs false number o Ho Hf Hw) as (N & ls & Hls & E). exists ls. split; auto. exists N.
    intros fuel d Hfu Hg. exists d. split; auto. unfold attr_step, pbind. rewrite E by auto.
    unfold TY_AttributeList. replace (attr_type_at data o =? 32) with false by lia. cbn. now rewrite app_nil_r.
  Qed.
  (** Without an attribute list. *)
  Lemma attr_file_plain runs offs : attr_walk data (field 2 data 20) offs true -> 22 <= zlen data -> no_attribute_list data offs ->
    Forall (attr_whole (cluster_size nt) data) offs -> exists N ls, record_lines (cluster_size nt) runs number p data offs ls /\
    forall fuel d, (N <= fuel)%nat -> gd d -> exists d', gd d' /\ attr_file fuel nt runs f d = (d', (ls, Ok tt)).
  Proof.
    intros W Hl Hno Hw. pose proof (field_nonneg 2 data 20 Hb) as H0.
    destruct (Forall2_choose (fun o part => attribute_lines (cluster_size nt) runs false number p data o part /\
      exists N, forall fuel d, (N <= fuel)%nat -> gd d -> exists d', gd d' /\ attr_step fuel runs o d = (d', (part, Ok tt))) offs) as (parts & F).
    { intros o Ho. destruct (plain_step runs o) as (ls & Hls & HN); eauto; [|rewrite Forall_forall in Hw; now apply Hw|unfold no_attribute_list in Hno; rewrite Forall_forall in Hno; now apply Hno].
      exact (walk_in f _ _ _ o W H0 Ho). }
    assert (Hk : Forall (fun o => type_known (attr_type_at data o)) offs) by (eapply Forall_impl; [|exact Hw]; intros a [K _ _ _]; exact K).
    destruct (attr_loop_spec runs _ _ W H0 Hk parts) as (N & HN). { eapply Forall2_imp; [|exact F]. cbn. tauto. }
    exists (N + S (length offs))%nat, (concat parts). split.
    - exists parts. split; auto. eapply Forall2_imp; [|exact F]. cbn. tauto.
    - intros fuel d Hfu Hg. rewrite attr_file_loop by auto. apply HN; auto; lia.
  Qed.
End File.

(** With an attribute list. *)
Section Listed.
  Context (img : list Z) (nt : ntfs) (mp : Z) (mdata : list Z) (ml : list extent) (bs : list Z).
  Context (Hb : bytes_ok img) (Hmp : mft_position nt = Some mp) (Hfr : 32 <= file_record_size nt <= U16_MAX)
    (Hm : mft_at img mp (file_record_size nt) mdata ml) (Hml : valid_extents (cluster_size nt) img ml) (Hbs : bytes_ok bs).
  Notation gd := (good img true).

  Lemma list_lines_spec runs self offs : Forall (entry_whole img nt ml bs self) offs -> exists N ls, entry_lines img nt ml bs self runs offs ls /\
    forall fuel k l d, (N <= fuel)%nat -> (length offs < k)%nat -> lyields img bs l offs true -> gd d ->
      exists d', gd d' /\ list_lines fuel k nt runs self l d = (d', (ls, Ok tt)).
  Proof.
    induction 1 as [|o offs Ho _ (N & ls & Hls & IH)].
    - exists 0%nat, []. split; [constructor|]. intros fuel [|k] l d _ Hk Y Hg; [lia|]. cbn [list_lines]. destruct (proj1 Y eq_refl d Hg) as (d' & E & G). rewrite E. eauto.
    - destruct (Z.eq_dec (entry_number bs o) self) as [Eq|Ne].
      + exists N, ls. split; [now apply el_own|]. intros fuel [|k] l d Hfu Hk Y Hg; cbn [length] in Hk; [lia|]. cbn [list_lines]. destruct (Y d Hg) as (d1 & l1 & x & E & D & G & Y').
        rewrite E, pbind_lift. rewrite (dle_number _ _ _ D). fold (entry_number bs o). rewrite Eq, Z.eqb_refl. apply IH; auto; lia.
      + destruct Ho as [Ho|(p & data & a & Hr & Hloc & Hw)]; [tauto|]. pose proof Hr as [R1 R2 R3 R4 (R5 & R6)].
        pose proof (field_nonneg 6 bs (o + 16) Hbs) as Hn0. fold (entry_number bs o) in Hn0.
        assert (Hp : 0 < p) by (eapply disk_position_pos; [exact Hml| |exact R2]; nia).
        assert (Hl : zlen data = file_record_size nt) by (rewrite (st_len _ _ R5), slice_len by lia; lia).
        set (F := mkFile (mkRecord data (Some p)) (entry_number bs o)).
        assert (Hdb : bytes_ok (f_data F)) by (eapply stored_bytes_ok; [apply bytes_ok_slice; exact Hb|exact R5]).
        pose proof Hloc as (before & after & b & W & _ & Hty & _).
        destruct (walk_fits F _ _ _ _ _ W ltac:(apply field_nonneg; auto)) as (Ha0 & Hafit).
        destruct (attr_print_spec nt F p Hdb (ve_cs _ _ _ Hml) eq_refl Hp) with (runs := runs) (inner := true) (n := entry_number bs o) (o := a) as (N1 & xs & Hxs & E1); auto.
        { pose proof (ve_img _ _ _ Hml). change (f_data F) with data. lia. }
        exists (N + N1)%nat, (xs ++ ls). split; [eapply el_other; eauto|]. intros fuel [|k] l d Hfu Hk Y Hg; cbn [length] in Hk; [lia|]. cbn [list_lines].
        destruct (Y d Hg) as (d1 & l1 & x & E & D & G & Y'). rewrite E, pbind_lift.
        assert (En : le_number x = entry_number bs o) by (rewrite (dle_number _ _ _ D); reflexivity). rewrite En.
        replace (entry_number bs o =? self) with false by lia.
        destruct (entry_file img nt mp mdata ml bs Hb Hmp Hfr Hm Hml Hbs o x p data d1 Hr D G) as (d2 & E2 & G2 & _ & _). rewrite (pbind_pm _ _ _ _ _ E2). rewrite En. fold F.
        assert (Hkt : type_known (entry_type bs o)) by (rewrite <- Hty; apply Hw).
        assert (Ea : le_to_attribute x F = Ok (mkAttr F a None)).
        { unfold le_to_attribute. cbn [f_number F]. rewrite En, Z.eqb_refl. cbn [negb]. unfold le_ty. rewrite (dle_type _ _ _ D), (dle_instance _ _ _ D).
          fold (entry_type bs o) (entry_instance bs o). rewrite (proj2 (known_type_spec _) Hkt). cbn [rbind]. apply locates_lookup; auto. change (f_data F) with data. lia. }
        rewrite Ea, pbind_lift. destruct (IH fuel k l1 d2 ltac:(lia) ltac:(lia) Y' G2) as (d3 & G3 & E3). exists d3. split; auto.
        eapply pbind_ok; [|exact E3]. apply E1. lia.
  Qed.
End Listed.

Lemma attr_file_listed img nt ml n p data before lo after bs offs e vs runs : let f := mkFile (mkRecord data (Some p)) n in
  file_with_list img nt ml f before lo after true bs offs e vs -> Forall (attr_whole (cluster_size nt) data) (before ++ lo :: after) ->
  Forall (entry_whole img nt ml bs n) (entries_of data lo offs e) ->
  exists N ls, listed_lines img nt ml runs n p data before lo after bs (entries_of data lo offs e) ls /\
    forall fuel d, (N <= fuel)%nat -> good img true d -> exists d', good img true d' /\ attr_file fuel nt runs f d = (d', (ls, Ok tt)).
Proof.
  intros f [Hb (mp & mdata & Hmp & Hm) Hfr Hml (Hfb & H22) Hp W Hbe Haf Hty Hc Hl Wl Hend _] Hw He.
  change (f_data f) with data in *. change (f_position f) with (Some p) in Hp. destruct (Hp p eq_refl) as (Hp0 & Hpl).
  pose proof (field_nonneg 2 data 20 Hfb) as H0. pose proof (fun o => walk_in f _ _ _ o W H0) as Hin.
  assert (Hpl' : p + zlen data <= TWO64) by (unfold TWO64, U64_MAX in *; lia).
  assert (Hlo : In lo (before ++ lo :: after)) by apply in_elt. destruct (Hin lo Hlo) as (Hlo0 & Hlof).
  destruct (flat_open img nt f lo bs offs e Hb Hfb Hlo0 Hlof Hp Hc Hl Wl) as (Hbs & v & Ev & Y).
  assert (Hew : ends_well e = true) by (destruct e; auto; tauto). rewrite Hew in Y.
  assert (Hwf : forall o, In o (before ++ lo :: after) -> attr_whole (cluster_size nt) data o) by (now apply Forall_forall).
  assert (Hpl_step : forall l, incl l (before ++ lo :: after) -> no_attribute_list data l -> exists parts, Forall2 (fun o part => attribute_lines (cluster_size nt) runs false n p data o part /\
      exists N, forall fuel d, (N <= fuel)%nat -> good img true d -> exists d', good img true d' /\ attr_step nt data p n fuel runs o d = (d', (part, Ok tt))) l parts).
  { intros l Hi Hno. apply Forall2_choose. intros o Ho. apply (plain_step (good img true) nt data p n Hfb (ve_cs _ _ _ Hml) Hp0 Hpl' runs o (Hin o (Hi o Ho)) (Hwf o (Hi o Ho))).
    unfold no_attribute_list in Hno. rewrite Forall_forall in Hno. now apply Hno. }
  destruct (Hpl_step before ltac:(intros x Hx; apply in_or_app; auto) Hbe) as (p1 & F1).
  destruct (Hpl_step after ltac:(intros x Hx; apply in_or_app; right; now right) Haf) as (p2 & F2).
  destruct (attr_print_spec nt f p Hfb (ve_cs _ _ _ Hml) eq_refl Hp0 Hpl' runs false n lo Hlo0 Hlof (Hwf lo Hlo)) as (N1 & l2 & Hl2 & E2).
  destruct (list_lines_spec img nt mp mdata ml bs Hb Hmp Hfr Hm Hml Hbs runs n _ He) as (N2 & l3 & Hl3 & E3).
  destruct (attr_loop_spec (good img true) nt data p n runs _ _ W H0) with (parts := p1 ++ (l2 ++ l3) :: p2) as (N & HN).
  { eapply Forall_impl; [|exact Hw]. intros a [K _ _ _]. exact K. }
  { apply Forall2_app; [eapply Forall2_imp; [|exact F1]; cbn; tauto|]. constructor; [|eapply Forall2_imp; [|exact F2]; cbn; tauto].
    exists (N1 + N2 + S (length (entries_of data lo offs e)))%nat. intros fuel d Hfu Hg. destruct (E3 fuel fuel (alist_of_sval v) d ltac:(lia) ltac:(lia) Y Hg) as (d' & G & E).
    exists d'. split; auto. unfold attr_step. eapply pbind_ok; [apply E2; lia|]. rewrite Hty. change (32 =? TY_AttributeList) with true. cbn beta iota. fold f. rewrite Ev, pbind_lift. exact E. }
  exists (N + S (length (before ++ lo :: after)))%nat, (concat (p1 ++ (l2 ++ l3) :: p2)). split.
  - exists (concat p1), l2, l3, (concat p2). splits; auto.
    + exists p1. split; auto. eapply Forall2_imp; [|exact F1]; cbn; tauto.
    + exists p2. split; auto. eapply Forall2_imp; [|exact F2]; cbn; tauto.
    + rewrite concat_app. cbn [concat]. now rewrite <- app_assoc.
  - intros fuel d Hfu Hg. unfold f. rewrite (attr_file_loop (good img true)) by auto. apply HN; auto; lia.
Qed.

(** ** [fileinfo] *)
Lemma record_line_spec n p data d : bytes_ok data -> 32 <= zlen data -> record_line (mkFile (mkRecord data (Some p)) n) d = (d, ([file_line n p data], Ok tt)).
Proof.
  intros Hb Hl. unfold record_line, f_allocated_size, f_data_size, f_hard_link_count, f_is_directory, f_flags, f_sequence_number, rd_u16, rd_u32.
  cbn [f_data f_rec rec_data f_number]. rewrite !rd_in by lia. cbn [rbind]. rewrite !pbind_lift. rewrite flags_bit by auto. reflexivity.
Qed.

(** What is printed about an attribute is determined by its bytes. *)
Lemma std_info_fun bs v w : decodes_std_info bs v -> decodes_std_info bs w -> si_file_attributes v = si_file_attributes w /\ si_ntfs3 v = si_ntfs3 w.
Proof.
  intros D E. split.
  - apply Z.bits_inj'. intros i Hi. pose proof (dsi_attributes _ _ D i Hi) as A. pose proof (dsi_attributes _ _ E i Hi) as B.
    destruct (Z.testbit (si_file_attributes v) i), (Z.testbit (si_file_attributes w) i); auto; [symmetry; tauto|tauto].
  - destruct (Z_lt_le_dec (zlen bs) 72) as [H|H].
    + now rewrite (dsi_old _ _ D H), (dsi_old _ _ E H).
    + destruct (dsi_new _ _ D H) as ([x1 x2 x3 x4 x5 x6 x7] & -> & X), (dsi_new _ _ E H) as ([y1 y2 y3 y4 y5 y6 y7] & -> & Y). cbn in X, Y.
      repeat match goal with H : _ /\ _ |- _ => destruct H end. congruence.
Qed.
Lemma info_line_fun data o l1 l2 : info_line data o l1 -> info_line data o l2 -> l1 = l2.
Proof.
  intros [bs v T R L V D|bs name T R L V N1 N2 N3 U|bs name T N U L|T1 T2 T3] [bs' v' T' R' L' V' D'|bs' name' T' R' L' V' N1' N2' N3' U'|bs' name' T' N' U' L'|T1' T2' T3']; try congruence; auto.
  - assert (bs' = bs) by (destruct V as (_ & ->), V' as (_ & ->); reflexivity). subst bs'. destruct (std_info_fun _ _ _ D D') as (-> & ->). reflexivity.
  - assert (bs' = bs) by (destruct V as (_ & ->), V' as (_ & ->); reflexivity). subst bs'. now rewrite (utf16_fun _ _ _ U U').
  - rewrite (name_at_fun _ _ _ _ N N') in U. now rewrite (utf16_fun _ _ _ U U').
Qed.

Section InfoList.
  Context (img : list Z) (nt : ntfs) (ml : list extent) (bs : list Z) (e : list_end) (f : file).
  Notation gd := (good img true).
  Lemma info_loop_yields B : forall vs st, fyields img nt ml bs e f B st vs true -> Forall (view_ok f) vs -> Forall (at_view (f_data f) info_whole) vs ->
    exists parts, Forall2 (fun v part => at_view (f_data f) (fun data o => info_line data o part) v) vs parts /\
    forall fuel k d, (B <= fuel)%nat -> (length vs < k)%nat -> gd d -> exists d', gd d' /\ info_loop fuel k nt st d = (d', (concat parts, Ok tt)).
  Proof.
    intros vs. assert (Hparts : Forall (view_ok f) vs -> Forall (at_view (f_data f) info_whole) vs -> exists parts, Forall2 (fun v part =>
      match view_at (f_data f) v with
      | Some (data, o) => info_line data o part /\ forall F l, f_data F = data -> (match v with VParts _ _ _ _ _ => True | _ => l = None end) ->
          forall fuel d, attribute_info fuel nt (mkAttr F o l) d = (d, (part, Ok tt))
      | None => False
      end) vs parts).
    { intros Ok1 Ok2. apply Forall2_choose. intros v Hv. rewrite Forall_forall in Ok1, Ok2. pose proof (Ok1 v Hv) as (K1 & K2). pose proof (Ok2 v Hv) as K3.
      unfold at_view in K3. destruct (view_at (f_data f) v) as [[data o]|] eqn:Ev; [|contradiction]. destruct K1 as (Hdb & Ho & Hf).
      set (F0 := mkFile (mkRecord data None) 0). destruct (info_spec nt F0 Hdb o None Ho Hf K3 ltac:(auto)) as (ls & Hls & _). 
      assert (Hall : forall F l, f_data F = data -> (match v with VParts _ _ _ _ _ => True | _ => l = None end) -> exists ls, info_line data o ls /\
        forall fuel d, attribute_info fuel nt (mkAttr F o l) d = (d, (ls, Ok tt))).
      { intros F l <- Hl. apply (info_spec nt F Hdb o l Ho Hf K3). destruct v; auto. cbn [view_at] in Ev. injection Ev as -> ->. tauto. }
      exists ls. split; auto. intros F l EF Hl. destruct (Hall F l EF Hl) as (ls' & Hls' & E). rewrite (info_line_fun _ _ _ _ Hls Hls'). exact E. }
    intros st Y Ok1 Ok2. destruct (Hparts Ok1 Ok2) as (parts & F). exists parts. split.
    { eapply Forall2_imp; [|exact F]. cbn. intros v part H. unfold at_view. destruct (view_at (f_data f) v) as [[data o]|]; tauto. }
    clear Hparts Ok2. revert st Y. induction F as [|v part vs parts Hv F IH]; intros st Y fuel [|k] d Hfu Hk Hg; cbn [length] in Hk; try lia; cbn [info_loop].
    - destruct (Y fuel d Hfu Hg) as (d' & st' & x & G & E). rewrite E. exists d'. auto.
    - destruct (Y fuel d Hfu Hg) as (d1 & st1 & y & G & E & Sh & Y'). rewrite E. inversion Ok1 as [|? ? Hvo Ok1']; subst.
      pose proof (shows_attribute img nt ml bs e f v y Hvo Sh) as Ha. destruct (view_at (f_data f) v) as [[data o]|] eqn:Ev; [|contradiction].
      destruct Ha as (i & F0 & l & -> & Ei & Ed & Hl). rewrite pbind_lift, Ei, pbind_lift. destruct Hv as (_ & Hv).
      destruct (IH Ok1' st1 Y' fuel k d1 Hfu ltac:(lia) G) as (d2 & G2 & E2). exists d2. split; auto. cbn [concat]. eapply pbind_ok; [|exact E2]. apply Hv; auto.
  Qed.
End InfoList.

Lemma attrs_start_plain f : 22 <= zlen (f_data f) -> attrs_start f = Ok (mkAttrs f (field 2 (f_data f) 20) None None).
Proof. apply attrs_start_eq. Qed.
Lemma fileinfo_start fuel nt n p data d d1 ls r : bytes_ok data -> 32 <= zlen data ->
  info_loop fuel fuel nt (mkAttrs (mkFile (mkRecord data (Some p)) n) (field 2 data 20) None None) d = (d1, (ls, r)) ->
  fileinfo_file fuel nt (mkFile (mkRecord data (Some p)) n) d = (d1, (file_line n p data :: ls, r)).
Proof.
  intros Hb Hl E. unfold fileinfo_file. eapply (pbind_ok _ _ _ _ [_]); [now apply record_line_spec|]. rewrite attrs_start_plain by (cbn; lia). rewrite pbind_lift. exact E.
Qed.

(** With an attribute list. *)
Lemma fileinfo_listed img nt ml n p data before lo after bs offs e vs : let f := mkFile (mkRecord data (Some p)) n in
  file_with_list img nt ml f before lo after true bs offs e vs -> 32 <= zlen data ->
  Forall (at_view data info_whole) (map VBase before ++ vs ++ map VBase after) ->
  exists N parts, Forall2 (fun v part => at_view data (fun data' o => info_line data' o part) v) (map VBase before ++ vs ++ map VBase after) parts /\
    forall fuel d, (N <= fuel)%nat -> good img true d -> exists d', good img true d' /\ fileinfo_file fuel nt f d = (d', (file_line n p data :: concat parts, Ok tt)).
Proof.
  intros f H H32 Hw. pose proof (ff_data _ _ _ _ _ _ _ _ _ _ _ _ H) as (Hb & _). destruct (file_yields _ _ _ _ _ _ _ _ _ _ _ _ H) as (_ & Y & Hok).
  destruct (info_loop_yields img nt ml bs e f _ _ _ Y Hok Hw) as (parts & F & E).
  exists (length offs + 3 + S (length (map VBase before ++ vs ++ map VBase after)))%nat, parts. split; auto. intros fuel d Hfu Hg.
  destruct (E fuel fuel d ltac:(lia) ltac:(lia) Hg) as (d' & G & E'). exists d'. split; auto. unfold f. apply fileinfo_start; auto.
Qed.

(** Without. *)
Lemma info_loop_plain nt f off offs : bytes_ok (f_data f) -> attr_walk (f_data f) off offs true -> 0 <= off -> no_attribute_list (f_data f) offs ->
  Forall (info_whole (f_data f)) offs -> exists parts, Forall2 (info_line (f_data f)) offs parts /\
  forall fuel k d, (0 < fuel)%nat -> (length offs < k)%nat -> info_loop fuel k nt (mkAttrs f off None None) d = (d, (concat parts, Ok tt)).
Proof.
  intros Hb W. assert (W0 := W). remember true as b eqn:Eb. induction W as [off H|off H Hmk|off H Hmk Hf|off offs b Hmk Hf W IH]; intros Ho Hno Hw; destruct (raw_next_spec f off Ho) as (S1 & S2 & S3 & S4); try discriminate.
  - exists []. split; [constructor|]. intros [|fuel] [|k] d Hfu Hk; try lia. cbn [info_loop]. rewrite (attrs_next_raw f nt fuel off d off _ _ W0 Ho eq_refl Hno). rewrite (S1 H). reflexivity.
  - exists []. split; [constructor|]. intros [|fuel] [|k] d Hfu Hk; try lia. cbn [info_loop]. rewrite (attrs_next_raw f nt fuel off d off _ _ W0 Ho eq_refl Hno). rewrite (S2 H Hmk). reflexivity.
  - inversion Hw as [|? ? Hw0 Hw']; subst. inversion Hno as [|? ? Hn0 Hno']; subst. pose proof Hf as (F1 & F2 & F3).
    destruct (IH eq_refl W ltac:(lia) Hno' Hw') as (parts & F & E). destruct (info_spec nt f Hb off None Ho Hf Hw0 ltac:(auto)) as (ls & Hls & Els).
    exists (ls :: parts). split; [now constructor|]. intros [|fuel] [|k] d Hfu Hk; cbn [length] in Hk; try lia. cbn [info_loop].
    rewrite (attrs_next_raw f nt fuel off d off _ _ W0 Ho eq_refl Hno). rewrite (S4 Hmk Hf). cbn [fst snd at_offset]. rewrite pbind_lift.
    unfold plain_item, item_to_attribute. cbn [ai_value_file ai_file ai_offset ai_entries]. rewrite (proj1 (attr_new_spec f off None Ho) Hf), pbind_lift.
    cbn [concat]. eapply pbind_ok; [apply Els|]. apply E; lia.
Qed.
Lemma fileinfo_plain nt n p data offs : bytes_ok data -> 32 <= zlen data -> attr_walk data (field 2 data 20) offs true -> no_attribute_list data offs ->
  Forall (info_whole data) offs -> exists N parts, Forall2 (info_line data) offs parts /\
  forall fuel d, (N <= fuel)%nat -> fileinfo_file fuel nt (mkFile (mkRecord data (Some p)) n) d = (d, (file_line n p data :: concat parts, Ok tt)).
Proof.
  intros Hb Hl W Hno Hw. pose proof (field_nonneg 2 data 20 Hb) as H0.
  destruct (info_loop_plain nt (mkFile (mkRecord data (Some p)) n) _ offs Hb W H0 Hno Hw) as (parts & F & E). exists (S (length offs)), parts. split; auto.
  intros fuel d Hfu. apply fileinfo_start; auto. apply E; lia.
Qed.

(** ** [fsinfo] *)
Lemma vol_info_exists bs : 12 <= zlen bs -> exists v, decodes_vol_info bs v.
Proof.
  intros H. exists (mkVI (field 1 bs 8) (field 1 bs 9) (field 2 bs 10)). split; auto. intros i Hi. unfold vi_flags. cbn [vi_raw_flags]. now apply vol_flags_bits.
Qed.
Lemma fsinfo_spec img nt f data major minor label : (forall d, good img true d -> exists d', ntfs_file nt 3 d = (d', Ok f) /\ good img true d') ->
  f_data f = data -> bytes_ok data -> 22 <= zlen data -> volume_record data major minor label ->
  forall d, good img true d -> exists d', good img true d' /\
    fsinfo nt d = (d', ([LGeometry (cluster_size nt) (file_record_size nt) (mft_position nt); LVersion major minor; LSize (sector_size nt) (serial_number nt) (ntfs_size nt); LLabel label], Ok tt)).
Proof.
  intros Hopen <- Hb Hl [(offs & W & H22 & Hk & (l1 & o & l2 & bs & Eo & Hl1 & Ht & Hr & Hv & H12 & -> & ->) & Hlab)] d Hg.
  pose proof (field_nonneg 2 (f_data f) 20 Hb) as H0. assert (W' := W). rewrite Eo in W'. destruct (walk_fits f _ _ _ _ _ W' H0) as (Ho0 & Hof).
  destruct (resident_len_bound f o bs Hb Ho0 Hof Hv) as (Hz & Hbs).
  destruct (Hopen d Hg) as (d1 & E1 & G1). destruct (Hopen d1 G1) as (d2 & E2 & G2). exists d2. split; auto.
  assert (Hvi : exists v, volume_info nt d = (d1, Ok v) /\ decodes_vol_info bs v).
  { pose proof (volume_info_spec nt d f) as S. rewrite E1 in S. specialize (S eq_refl).
    assert (Hl1' : Forall (fun o => type_known (attr_type_at (f_data f) o) /\ attr_type_at (f_data f) o <> 112) l1).
    { apply Forall_forall. intros x Hx. rewrite Forall_forall in Hl1, Hk. split; [apply Hk; rewrite Eo; apply in_or_app; auto|now apply Hl1]. }
    pose proof (find_structured_spec _ _ f 112 offs true vi_parses ltac:(cbn; auto 20) Hb Hl W H22) as (_ & _ & F). specialize (F l1 o l2 Eo Hl1' Ht).
    destruct F as (F & _). specialize (F Hr bs Hv). unfold TY_VolumeInformation in S. rewrite <- S in F.
    unfold volume_info in *. unfold mbind, mlift in *. rewrite E1 in *. cbn [snd] in *. destruct (find_structured _ _ _ _) as [v|x| |] eqn:Ef; cbn [decodes_exactly] in F; try contradiction.
    - exists v. auto.
    - destruct (vol_info_exists bs H12) as (v & D). destruct (F v D). }
  destruct Hvi as (v & Ev & Dv).
  unfold fsinfo. apply pbind_print. rewrite (pbind_pm _ _ _ _ _ Ev). rewrite (dvi_major _ _ Dv), (dvi_minor _ _ Dv). apply pbind_print. apply pbind_print.
  unfold label_line. pose proof (volume_name_spec nt d1 f offs) as S. rewrite E2 in S. specialize (S eq_refl Hb Hl W H22 Hk). destruct S as (S1 & S2 & _).
  assert (Hd : fst (volume_name nt d1) = d2) by (unfold volume_name; rewrite E2; reflexivity). destruct (volume_name nt d1) as [d3 y]. cbn [fst snd] in *. subst d3.
  destruct Hlab as [Hno|a1 oa a2 nm name Ea Ha1 Hta Hra Hva Hlen Hu].
  - rewrite (proj2 S1 Hno). reflexivity.
  - rewrite (proj2 (S2 nm)) by (exists a1, oa, a2; auto 10). replace (units nm) with name; [reflexivity|]. symmetry. apply units_utf16; auto. eapply utf16_even; eauto.
Qed.

(** ** The claims *)
Lemma attr_record nt data p n runs offs d : bytes_ok data -> 1 <= cluster_size nt -> 0 < p -> p + zlen data <= TWO64 -> 22 <= zlen data ->
  attr_walk data (field 2 data 20) offs true -> no_attribute_list data offs -> Forall (attr_whole (cluster_size nt) data) offs ->
  exists N ls, record_lines (cluster_size nt) runs n p data offs ls /\
    forall fuel, (N <= fuel)%nat -> attr_file fuel nt runs (mkFile (mkRecord data (Some p)) n) d = (d, (ls, Ok tt)).
Proof.
  intros Hb Hcs Hp Hpl Hl Hw Hn Hf. destruct (attr_file_plain (eq d) nt data p n Hb Hcs Hp Hpl runs offs Hw Hl Hn Hf) as (N & ls & Hls & H).
  exists N, ls. split; auto. intros fuel Hfu. destruct (H fuel d Hfu eq_refl) as (d' & <- & E). exact E.
Qed.
Lemma attr_listed img nt ml n p data before lo after bs offs e vs runs : let f := mkFile (mkRecord data (Some p)) n in
  file_with_list img nt ml f before lo after true bs offs e vs -> Forall (attr_whole (cluster_size nt) data) (before ++ lo :: after) ->
  Forall (entry_whole img nt ml bs n) (entries_of data lo offs e) ->
  exists N ls, listed_lines img nt ml runs n p data before lo after bs (entries_of data lo offs e) ls /\
    forall fuel d, (N <= fuel)%nat -> faultless d -> d_img d = img -> exists d', faultless d' /\ d_img d' = img /\ attr_file fuel nt runs f d = (d', (ls, Ok tt)).
Proof.
  intros f Hf Hw He. destruct (attr_file_listed img nt ml n p data before lo after bs offs e vs runs Hf Hw He) as (N & ls & Hls & H). exists N, ls. split; auto.
  intros fuel d Hfu Hd Hi. destruct (H fuel d Hfu) as (d' & (G1 & G2) & E); [split; auto|]. exists d'. auto.
Qed.
Lemma fileinfo_list img nt ml n p data before lo after bs offs e vs : let f := mkFile (mkRecord data (Some p)) n in
  file_with_list img nt ml f before lo after true bs offs e vs -> 32 <= zlen data ->
  Forall (at_view data info_whole) (map VBase before ++ vs ++ map VBase after) ->
  exists N parts, Forall2 (fun v part => at_view data (fun data' o => info_line data' o part) v) (map VBase before ++ vs ++ map VBase after) parts /\
    forall fuel d, (N <= fuel)%nat -> faultless d -> d_img d = img -> exists d', faultless d' /\ d_img d' = img /\
      fileinfo_file fuel nt f d = (d', (file_line n p data :: concat parts, Ok tt)).
Proof.
  intros f Hf Hl Hw. destruct (fileinfo_listed img nt ml n p data before lo after bs offs e vs Hf Hl Hw) as (N & parts & Hp & H). exists N, parts. split; auto.
  intros fuel d Hfu Hd Hi. destruct (H fuel d Hfu) as (d' & (G1 & G2) & E); [split; auto|]. exists d'. auto.
Qed.
