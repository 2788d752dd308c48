(** * Lookup by file name: from [directory_find] and the specification of the name comparison. *)
From Verif Require Import Base Dev Types Record DataRuns Stream NonResident Resident Attribute File Structured AttrList Upcase Index
  Spec SpecMisc SpecValues SpecIndex BaseProofs ReaderProofs RecordProofs StreamProofs AttributeProofs FileProofs StructuredProofs ValueProofs AttrListProofs
  MiscProofs IndexProofs DirectoryProofs PropsValues.

Lemma listing_bytes (child : Z -> list Z -> Prop) : (forall vcn data, child vcn data -> bytes_ok data) -> forall data stop o l,
  listing child data stop o l -> bytes_ok data -> Forall bytes_ok l.
Proof.
  intros Hc.
  apply (listing_ind2 child (fun data stop o l _ => bytes_ok data -> Forall bytes_ok l) (fun data o l _ => bytes_ok data -> Forall bytes_ok l)); auto.
  - intros data stop o l1 l2 _ _ _ _ _ IH1 _ IH2 Hb. apply Forall_app. split; auto. constructor; auto. now apply bytes_ok_slice.
  - intros data o vcn data' l _ _ _ _ Hch _ IH _. eauto.
Qed.

Lemma file_name_exists bs : 68 <= zlen bs -> 66 + 2 * field 1 bs 64 <= zlen bs -> field 1 bs 65 <= 3 -> exists v, decodes_file_name bs v.
Proof.
  intros H1 H2 H3. exists (fn_of_header bs (slice bs 66 (66 + 2 * field 1 bs 64))). unfold fn_of_header.
  split; cbn [fn_parent fn_creation_time fn_modification_time fn_mft_record_modification_time fn_access_time fn_allocated_size fn_data_size fn_name]; auto.
  - intros i Hi. unfold fn_file_attributes. cbn [fn_attributes]. now apply file_flags_bits.
  - unfold fn_is_directory, fn_file_attributes. cbn [fn_attributes]. rewrite Z.land_spec. change (Z.testbit FILE_ATTRIBUTE_FLAGS 28) with true. apply andb_true_r.
  - unfold fn_namespace. cbn [fn_raw_namespace]. now replace (field 1 bs 65 <=? 3) with true by lia.
  - unfold fn_name_length. cbn [fn_raw_name_length]. lia.
Qed.

Lemma utf16_even bs us : utf16 bs us -> Nat.Even (length bs).
Proof. induction 1; cbn [length]; [exists 0%nat; lia|]. destruct IHutf16 as (k & ->). exists (S k). lia. Qed.

(** The code units of the name in the key of an entry. *)
Definition entry_units (e : list Z) : list Z := units (slice (key_of e) 66 (66 + 2 * field 1 (key_of e) 64)).
Lemma named_units e us : named e us -> us = entry_units e.
Proof. intros (_ & _ & _ & _ & U). symmetry. apply units_utf16; auto. eapply utf16_even; eauto. Qed.

Section Names.
  Variables (nt : ntfs) (t name : list Z).
  Hypothesis Ht : upcase_table nt = Some t.
  Hypothesis Hl : zlen t = 65536.
  Hypothesis Hn : Forall unit_ok name.
  Definition answer (e : list Z) : comparison := match upcase_cmp nt name (entry_units e) with Ok c => c | _ => Eq end.

  Lemma key_bytes e : bytes_ok e -> bytes_ok (key_of e).
  Proof. intros H. now apply bytes_ok_slice. Qed.
  Lemma entry_units_ok e : bytes_ok e -> Forall unit_ok (entry_units e).
  Proof. intros H. apply unit_ok_units, bytes_ok_slice, key_bytes, H. Qed.

  Lemma answer_spec e : bytes_ok e -> upcase_cmp nt name (entry_units e) = Ok (answer e) /\
    (answer e = Eq <-> upper t name = upper t (entry_units e)) /\ (answer e = Lt <-> lex_lt (upper t name) (upper t (entry_units e))) /\
    (answer e = Gt <-> lex_lt (upper t (entry_units e)) (upper t name)).
  Proof.
    intros Hb. unfold answer. destruct (upcase_cmp_spec nt t name (entry_units e) Ht Hl Hn (entry_units_ok e Hb)) as (c & -> & H). auto.
  Qed.

  Lemma answer_compares e us : bytes_ok e -> named e us -> compares fn_from_slice (fun k => upcase_cmp nt name (units (fn_name k))) answer e.
  Proof.
    intros Hb N. destruct N as (Hk & N1 & N2 & N3 & _). split; auto. intros p.
    assert (B : bytes_ok (key_of e)) by now apply key_bytes.
    assert (L : zlen (key_of e) <= U64_MAX).
    { destruct Hk as [Hk1 Hk2]. unfold key_of. rewrite slice_len by lia. pose proof (field2_bound e 10 Hb). unfold U64_MAX, U16_MAX in *. lia. }
    pose proof (C35_file_name_bytes (key_of e) p B L) as D. unfold fn_from_slice.
    destruct (file_name_exists _ N1 N2 N3) as (v0 & D0).
    destruct (from_slice _ (key_of e) p) as [v|x| |]; cbn in D; try tauto; [|exfalso; eapply D; eauto].
    exists v. split; auto. rewrite (dfn_name _ _ D). apply answer_spec; auto.
  Qed.

  Lemma answer_consistent l : Forall bytes_ok l -> Forall (fun e => exists us, named e us) l ->
    names_sorted (fun a b => lex_lt (upper t a) (upper t b)) l -> consistent answer l.
  Proof.
    intros Hb Hnm Hs l1 a l2 b l3 E.
    assert (Ia : In a l) by (subst l; apply in_or_app; right; now left).
    assert (Ib : In b l) by (subst l; apply in_or_app; right; right; apply in_or_app; right; now left).
    rewrite Forall_forall in Hb, Hnm. destruct (Hnm _ Ia) as (na & Na), (Hnm _ Ib) as (nb & Nb).
    pose proof (Hs _ _ _ _ _ _ _ E Na Nb) as K. rewrite (named_units _ _ Na), (named_units _ _ Nb) in K.
    destruct (answer_spec a (Hb _ Ia)) as (_ & A1 & A2 & A3), (answer_spec b (Hb _ Ib)) as (_ & B1 & B2 & B3). split; intros H.
    - apply B3 in H. destruct (answer a) eqn:E1; auto.
      + pose proof (proj1 A1 eq_refl) as X. rewrite X in H. tauto.
      + pose proof (proj1 A2 eq_refl) as X. pose proof (lex_trans _ _ _ H X). tauto.
    - apply A2 in H. destruct (answer b) eqn:E1; auto.
      + pose proof (proj1 B1 eq_refl) as X. rewrite X in H. tauto.
      + pose proof (proj1 B3 eq_refl) as X. pose proof (lex_trans _ _ _ X H). tauto.
  Qed.
End Names.

(** What a lookup by name returns: an entry of the listing with an equal name, or [None] if there is none. *)
Theorem file_name_lookup nt img f offs clean root alloc t name l d : bytes_ok img -> bytes_ok (f_data f) -> 24 <= zlen (f_data f) ->
  attr_walk (f_data f) (field 2 (f_data f) 20) offs clean -> 1 <= cluster_size nt ->
  is_directory (cluster_size nt) img (f_data f) offs root alloc -> index_listing (cluster_size nt) root alloc l ->
  upcase_table nt = Some t -> zlen t = 65536 -> Forall unit_ok name ->
  Forall (fun e => exists us, named e us) l -> names_sorted (fun a b => lex_lt (upper t a) (upper t b)) l ->
  forall ix, dir_ix nt img f root alloc ix -> good img true d ->
  exists N d' r, good img true d' /\ (forall fuel, (N <= fuel)%nat -> file_name_find fuel nt ix name d = (d', r)) /\
  match r with
  | Some (Ok e) => In (ie_slice e) l /\ exists us, named (ie_slice e) us /\ upper t us = upper t name
  | None => forall e us, In e l -> named e us -> upper t us <> upper t name
  | _ => False
  end.
Proof.
  intros Hib Hb H24 W Hcs D L Ht Hl Hn Hnm Hs ix Hix Hg.
  assert (Lb : Forall bytes_ok l).
  { eapply listing_bytes; [|exact L|].
    - intros vcn data Hc. exact (proj1 (dir_child_ok nt img f offs root alloc Hib D vcn data Hc)).
    - apply bytes_ok_slice. exact (root_bytes_ok nt img f offs clean root alloc Hb H24 W D). }
  assert (Lc : Forall (compares fn_from_slice (fun k => upcase_cmp nt name (units (fn_name k))) (answer nt name)) l).
  { apply Forall_forall. intros e He. destruct (proj1 (Forall_forall _ _) Hnm e He) as (us & N). apply (answer_compares nt t name Ht Hl Hn e us); auto. now apply (proj1 (Forall_forall _ _) Lb). }
  destruct (directory_find nt img f offs clean root alloc Hib Hb H24 W Hcs D fn_from_slice (fun k => upcase_cmp nt name (units (fn_name k))) (answer nt name) ix l d)
    as (N & d' & r & Hg' & F & E); auto; [apply (answer_consistent nt t name Ht Hl Hn); auto|].
  exists N, d', r. split; auto. split; [exact E|]. rewrite Forall_forall in Lb, Hnm.
  destruct r as [[e|x| |]|]; cbn in F |- *; auto.
  - destruct F as [F1 F2]. split; auto. destruct (Hnm _ F1) as (us & Nm). exists us. split; auto.
    destruct (answer_spec nt t name Ht Hl Hn (ie_slice e) (Lb _ F1)) as (_ & A & _). rewrite (named_units _ _ Nm). symmetry. now apply A.
  - intros e us Ie Nm K. rewrite Forall_forall in F. apply (F _ Ie).
    destruct (answer_spec nt t name Ht Hl Hn e (Lb _ Ie)) as (_ & A & _). apply A. rewrite <- (named_units _ _ Nm). now symmetry.
Qed.
