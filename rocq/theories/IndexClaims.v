(** * The statements of PropsIndex.v, assembled from the lemmas on index nodes, records and trees. *)
From Verif Require Import Base Dev Types Record DataRuns Stream NonResident Resident Attribute File Structured AttrList Upcase Index
  Spec SpecMisc SpecValues SpecIndex BaseProofs DevProofs ReaderProofs RecordProofs StreamProofs NonResidentProofs AttributeProofs FileProofs StructuredProofs ValueProofs
  AttrListProofs MiscProofs NodeProofs IndexRecordProofs IndexProofs IndexTotalProofs DirectoryProofs DirTotalProofs NameFindProofs CycleProofs.

Lemma faultless_good img d : faultless d -> d_img d = img -> good img true d.
Proof. intros. split; auto. Qed.

(** ** C26 *)
Lemma node_entries_iteration node p : bytes_ok node -> position_sane p (zlen node) ->
  exists l e x, node_walk node (zlen node) 0 l e /\
    Forall (fun o => 0 <= o /\ o + entry_len node o <= zlen node) l /\ 13 * (zlen l - 1) <= zlen node /\
    forall n, iterate node_entries_next (length l + n) (mkNE node p) =
      map (fun o => Some (Ok (mkIE (entry_bytes node o) (pos_add p o)))) l ++ repeat (after_node e x) n.
Proof.
  intros Hb Hp. pose proof (zlen_nonneg node) as Hz. destruct (node_walk_exists node (zlen node) Hb ltac:(lia) 0 ltac:(lia)) as (l & e & W).
  destruct (node_iteration node Hb 0 l e W ltac:(lia) p Hp) as (x & H). exists l, e, x. split; auto. split.
  - pose proof (node_walk_in node (zlen node) 0 l e Hb W ltac:(lia)) as K. eapply Forall_impl; [|exact K]. intros o (H1 & (H2 & H3) & H4). lia.
  - split; [pose proof (node_walk_length node (zlen node) 0 l e Hb W ltac:(lia)); lia|].
    intros n. rewrite <- (H n). rewrite slice_all by lia. now rewrite (pos_add_0 p (zlen node) Hp Hz).
Qed.

(** Consecutive entries. *)
Lemma node_walk_consecutive node stop o l e : node_walk node stop o l e -> forall l1 a b l2, l = l1 ++ a :: b :: l2 ->
  b = a + entry_len node a /\ entry_is_last node a = false.
Proof.
  induction 1 as [| | | |o l e Hlt Hf Hl Hlast W IH]; intros l1 a b l2 E; try (destruct l1 as [|? [|? ?]]; discriminate).
  - destruct l1 as [|c l1]; cbn in E; injection E; intros E2 E3; subst.
    + split; auto. inversion W; subst; auto.
    + eauto.
Qed.
Lemma node_walk_first node stop o l e : node_walk node stop o l e -> forall a l2, l = a :: l2 -> a = o.
Proof. destruct 1; intros a l2 E; try discriminate; congruence. Qed.

Lemma root_entries_ok root p : bytes_ok root -> index_root_ok root ->
  ir_new root p = Ok (mkIR root p) /\ ir_entries (mkIR root p) = Ok (mkNE (root_entries root) (pos_add p (16 + field 4 root 16))).
Proof.
  intros Hb (H1 & H2 & H3 & H4). unfold ir_new, ir_entries, ir_range, ir_entries_offset, ir_data_size, rd_u32. cbn [ir_slice ir_position].
  replace (zlen root <? 32) with false by lia. rewrite !rd_in by lia. cbn [rbind].
  replace (zlen root <=? 16 + field 4 root 16) with false by lia. replace (zlen root <? 16 + field 4 root 20) with false by lia.
  split; auto. pose proof (field4_bound root 16 Hb). unfold idx_range. now rewrite get_range_in by lia.
Qed.
Lemma record_entries_ok data p : bytes_ok data -> 36 <= zlen data -> index_record_ok data ->
  (field 4 data 24 <= field 4 data 28 ->
    irec_entries (mkRecord data p) = Ok (mkNE (slice data (24 + field 4 data 24) (24 + field 4 data 28)) (pos_add p (24 + field 4 data 24)))) /\
  (field 4 data 28 < field 4 data 24 -> irec_entries (mkRecord data p) = Panic).
Proof.
  intros Hb Hl (_ & H2 & H3). unfold irec_entries, irec_range, irec_entries_offset, irec_data_size, rd_u32. cbn [rec_data rec_position].
  rewrite !rd_in by lia. cbn [rbind]. pose proof (field4_bound data 24 Hb). unfold idx_range. split; intros H0.
  - now rewrite get_range_in by lia.
  - now rewrite (proj2 (get_range_none data (24 + field 4 data 24) (24 + field 4 data 28))) by lia.
Qed.

(** ** C40 *)
Lemma allocation_record nt img f o alloc size vcn fuel d : bytes_ok img -> bytes_ok (f_data f) -> 0 <= o -> attr_fits (f_data f) o ->
  ~ attr_resident_at (f_data f) o -> attr_content (cluster_size nt) img (f_data f) o alloc -> 1 <= cluster_size nt -> 36 <= size <= U16_MAX ->
  faultless d -> d_img d = img ->
  exists v, attr_value nt (mkAttr f o None) d = (d, Ok v) /\ ia_of_value v = Ok v /\
  let q := vcn * cluster_size nt in
  exists d' r, record_from_vcn fuel nt v size vcn d = (d', r) /\ d_img d' = img /\
  (~ I64_MIN <= q <= I64_MAX -> r = Err (EVcnTooBig vcn)) /\
  (I64_MIN <= q < 0 -> r = Err (EIo InvalidInput)) /\
  (0 <= q <= I64_MAX -> zlen alloc <= q -> r = Err (EVcnOutOfBoundsInIndexAllocation (av_data_position v) vcn)) /\
  (0 <= q <= I64_MAX -> q < zlen alloc < q + size -> r = Err (EIo UnexpectedEof)) /\
  (0 <= q <= I64_MAX -> q + size <= zlen alloc -> index_array_clear (cluster_size nt) size alloc vcn ->
     (forall x, r = Ok x -> index_record_at (cluster_size nt) size alloc vcn (rec_data x)) /\
     (forall data, index_record_at (cluster_size nt) size alloc vcn data -> exists p, r = Ok (mkRecord data p)) /\
     (24 + field 4 alloc (q + 28) <= U32_MAX -> 24 + field 4 alloc (q + 32) <= U32_MAX -> returns r)).
Proof.
  intros Hib Hb Ho Hf Hnr Hc Hcs Hsize Hfa Hd. destruct Hc as [bs Hr|l _ H56 Hro Hv He Hs]; [tauto|].
  set (alloc := file_content _ _ _ _). assert (Hg : good img true d) by (split; auto).
  destruct (alloc_value nt img f alloc Hb o l Ho Hf Hnr H56 Hro Hv He Hs eq_refl) as (v & I & _ & Ev & Eia & HI & Hp & Hlen & R).
  exists v. split; auto. split; auto. intros q.
  assert (Hab : bytes_ok alloc) by (now apply bytes_ok_content).
  destruct (record_from_vcn_spec nt fuel I (good img true) alloc size (R fuel) Hlen Hsize v d vcn HI Hp Hg) as (d' & r & Hg' & E & H1 & H2 & H3 & H4 & H5).
  cbn zeta in *. fold q in H1, H2, H3, H4, H5. exists d', r. split; auto. split; [apply Hg'|]. split; auto. split; auto. split; auto. split; auto.
  intros Hq Hin Hcl. split; [|split].
  - intros x ->. destruct (record_from_vcn_inv nt fuel I (good img true) alloc size (R fuel) Hlen Hab Hcs Hsize v d d' vcn x HI Hp Hg) as (_ & _ & K); auto.
  - intros data Hdata. destruct (record_from_vcn_ok nt fuel I (good img true) alloc size (R fuel) Hlen Hab Hcs Hsize v d vcn data HI Hp Hg ltac:(lia) Hdata Hcl) as (d2 & p & _ & E2).
    rewrite E in E2. injection E2 as _ ->. eauto.
  - intros S1 S2. destruct (H5 Hq Hin) as (p & ->). set (prot := slice alloc _ _) in *.
    assert (Hpb : bytes_ok prot) by (now apply bytes_ok_slice). assert (Hpl : zlen prot = size) by (unfold prot; rewrite slice_len; lia).
    assert (Hret : returns (irec_of_bytes prot p)).
    { apply irec_of_bytes_returns; auto; try lia; unfold prot; rewrite field_slice by lia; auto. }
    destruct (irec_of_bytes prot p) as [x|x| |] eqn:Ex; cbn [rbind]; auto.
    assert (Hx : zlen (rec_data x) = size).
    { apply (irec_of_bytes_spec prot p Hpb) in Ex; [|lia|exact Hcl]. destruct Ex as (data & -> & Hst & _). cbn [rec_data]. rewrite (st_len _ _ Hst). exact Hpl. }
    unfold irec_vcn, rd_u64. rewrite rd_in by lia. cbn [rbind]. destruct (_ =? _); exact Logic.I.
Qed.

(** ** C27 *)
Lemma index_child_fun cs root alloc vcn d1 d2 : bytes_ok alloc -> index_child cs root alloc vcn d1 -> index_child cs root alloc vcn d2 -> d1 = d2.
Proof. intros Hb ([_ H1 _ _] & _) ([_ H2 _ _] & _). eapply stored_unique; [|exact H1|exact H2]. now apply bytes_ok_slice. Qed.

Lemma listing_fun (child : Z -> list Z -> Prop) : (forall v d1 d2, child v d1 -> child v d2 -> d1 = d2) ->
  forall data stop o l, listing child data stop o l -> forall l', listing child data stop o l' -> l = l'.
Proof.
  intros Hc.
  apply (listing_ind2 child (fun data stop o l _ => forall l', listing child data stop o l' -> l = l') (fun data o l _ => forall l', sublisting child data o l' -> l = l')).
  - intros data stop o Ho l' H'. inversion H'; subst; auto; lia.
  - intros data stop o l Ho Hf Hl Hlast _ IH l' H'. inversion H'; subst; auto; try lia; congruence.
  - intros data stop o l1 l2 Ho Hf Hl Hlast _ IH1 _ IH2 l' H'. inversion H'; subst; try lia; try congruence. f_equal; [auto|f_equal; auto].
  - intros data o Hn l' H'. inversion H'; subst; auto; congruence.
  - intros data o vcn data' l Hh H24 Ev Hi Hch _ IH l' H'. inversion H'; subst; [congruence|].
    match goal with H : child _ _ |- _ => match goal with H2 : child _ _ |- _ => lazymatch H with H2 => fail | _ => pose proof (Hc _ _ _ H H2); subst end end end. auto.
Qed.

Lemma directory_listing nt img f offs clean root alloc l fuel d : bytes_ok img -> bytes_ok (f_data f) -> 24 <= zlen (f_data f) ->
  attr_walk (f_data f) (field 2 (f_data f) 20) offs clean -> no_attribute_list (f_data f) offs -> 1 <= cluster_size nt ->
  is_directory (cluster_size nt) img (f_data f) offs root alloc -> index_listing (cluster_size nt) root alloc l ->
  (length offs < fuel)%nat -> faultless d -> d_img d = img ->
  exists ix, directory_index fuel nt f d = (d, Ok ix) /\
  exists es N, map ie_slice es = l /\ forall k n, (N <= k)%nat ->
    iterate (with_dev (entries_next k nt ix)) (length es + n) (index_entries ix, d) = map (fun e => Some (Ok e)) es ++ repeat None n.
Proof.
  intros Hib Hb Hl W Hno Hcs D L Hfu Hfa Hd.
  destruct (directory_index_ok nt img f offs clean root alloc Hb Hl W Hno D fuel d Hfu) as (ix & E & Hix). exists ix. split; auto.
  exact (directory_traverse nt img f offs clean root alloc Hib Hb Hl W Hcs D ix l d Hix (faultless_good _ _ Hfa Hd) L).
Qed.

(** ** C28 *)
Lemma directory_lookup nt img f offs clean root alloc l fuel d K (kp : list Z -> position -> res K) cmp c : bytes_ok img -> bytes_ok (f_data f) -> 24 <= zlen (f_data f) ->
  attr_walk (f_data f) (field 2 (f_data f) 20) offs clean -> no_attribute_list (f_data f) offs -> 1 <= cluster_size nt ->
  is_directory (cluster_size nt) img (f_data f) offs root alloc -> index_listing (cluster_size nt) root alloc l ->
  (length offs < fuel)%nat -> faultless d -> d_img d = img ->
  Forall (fun e => has_key e /\ forall p, exists k, kp (key_of e) p = Ok k /\ cmp k = Ok (c e)) l -> consistent c l ->
  exists ix, directory_index fuel nt f d = (d, Ok ix) /\
  exists N d' r, d_img d' = img /\ (forall n, (N <= n)%nat -> index_find kp cmp n nt ix d = (d', r)) /\
  match r with
  | Some (Ok e) => In (ie_slice e) l /\ c (ie_slice e) = Eq
  | None => Forall (fun e => c e <> Eq) l
  | _ => False
  end.
Proof.
  intros Hib Hb Hl W Hno Hcs D L Hfu Hfa Hd Hc Hs.
  destruct (directory_index_ok nt img f offs clean root alloc Hb Hl W Hno D fuel d Hfu) as (ix & E & Hix). exists ix. split; auto.
  destruct (directory_find nt img f offs clean root alloc Hib Hb Hl W Hcs D kp cmp c ix l d Hix (faultless_good _ _ Hfa Hd) L Hc Hs) as (N & d' & r & Hg & F & H).
  exists N, d', r. split; [apply Hg|]. split; auto.
Qed.
Lemma directory_name_lookup nt img f offs clean root alloc l fuel d t name : bytes_ok img -> bytes_ok (f_data f) -> 24 <= zlen (f_data f) ->
  attr_walk (f_data f) (field 2 (f_data f) 20) offs clean -> no_attribute_list (f_data f) offs -> 1 <= cluster_size nt ->
  is_directory (cluster_size nt) img (f_data f) offs root alloc -> index_listing (cluster_size nt) root alloc l ->
  (length offs < fuel)%nat -> faultless d -> d_img d = img ->
  upcase_table nt = Some t -> zlen t = 65536 -> Forall unit_ok name ->
  Forall (fun e => exists us, named e us) l -> names_sorted (fun a b => lex_lt (upper t a) (upper t b)) l ->
  exists ix, directory_index fuel nt f d = (d, Ok ix) /\
  exists N d' r, d_img d' = img /\ (forall n, (N <= n)%nat -> file_name_find n nt ix name d = (d', r)) /\
  match r with
  | Some (Ok e) => In (ie_slice e) l /\ exists us, named (ie_slice e) us /\ upper t us = upper t name
  | None => forall e us, In e l -> named e us -> upper t us <> upper t name
  | _ => False
  end.
Proof.
  intros Hib Hb Hl W Hno Hcs D L Hfu Hfa Hd Ht Hlt Hn Hnm Hs.
  destruct (directory_index_ok nt img f offs clean root alloc Hb Hl W Hno D fuel d Hfu) as (ix & E & Hix). exists ix. split; auto.
  destruct (file_name_lookup nt img f offs clean root alloc t name l d Hib Hb Hl W Hcs D L Ht Hlt Hn Hnm Hs ix Hix (faultless_good _ _ Hfa Hd)) as (N & d' & r & Hg & H1 & H2).
  exists N, d', r. split; [apply Hg|]. split; auto.
Qed.

(** ** C29, C30: [pan = true] allows panics, [pan = false] does not. *)
Lemma directory_total nt img f offs clean root alloc fuel d pan : bytes_ok img -> bytes_ok (f_data f) -> 24 <= zlen (f_data f) ->
  attr_walk (f_data f) (field 2 (f_data f) 20) offs clean -> no_attribute_list (f_data f) offs -> 1 <= cluster_size nt ->
  is_directory (cluster_size nt) img (f_data f) offs root alloc -> arrays_clear (cluster_size nt) (root_record_size root) alloc ->
  acyclic (index_child (cluster_size nt) root alloc) ->
  (pan = false -> sizes_small (cluster_size nt) (root_record_size root) alloc) ->
  (pan = false -> no_short_entry (index_child (cluster_size nt) root alloc) (root_entries root)) ->
  (length offs < fuel)%nat -> faultless d -> d_img d = img ->
  exists ix, directory_index fuel nt f d = (d, Ok ix) /\
  (exists N, forall k n, (N <= k)%nat -> Forall (fine_item pan) (iterate (with_dev (entries_next k nt ix)) n (index_entries ix, d))) /\
  forall K (kp : list Z -> position -> res K) cmp, (forall s p, fine pan (kp s p)) -> (forall k, fine pan (cmp k)) ->
    exists N, forall k, (N <= k)%nat -> fine_item pan (snd (index_find kp cmp k nt ix d)).
Proof.
  intros Hib Hb Hl W Hno Hcs D Hcl Hac Hsz Hsh Hfu Hfa Hd.
  destruct (directory_index_ok nt img f offs clean root alloc Hb Hl W Hno D fuel d Hfu) as (ix & E & Hix). exists ix. split; auto. split.
  - exact (directory_iterate_total nt img f offs clean root alloc Hib Hb Hl W Hcs D Hcl pan Hsz Hac Hsh ix d Hix (faultless_good _ _ Hfa Hd)).
  - intros K kp cmp H1 H2. exact (directory_find_total nt img f offs clean root alloc Hib Hb Hl W Hcs D Hcl pan Hsz Hac Hsh kp cmp ix d H1 H2 Hix (faultless_good _ _ Hfa Hd)).
Qed.

Lemma directory_cycle nt img f offs clean root alloc fuel d v node : bytes_ok img -> bytes_ok (f_data f) -> 24 <= zlen (f_data f) ->
  attr_walk (f_data f) (field 2 (f_data f) 20) offs clean -> no_attribute_list (f_data f) offs -> 1 <= cluster_size nt ->
  is_directory (cluster_size nt) img (f_data f) offs root alloc -> index_child (cluster_size nt) root alloc v node ->
  descends (root_entries root) (zlen (root_entries root)) 0 v -> descends node (24 + field 4 node 28) (24 + field 4 node 24) v ->
  (length offs < fuel)%nat -> faultless d -> d_img d = img ->
  exists ix, directory_index fuel nt f d = (d, Ok ix) /\
  (forall k, exists d' st, entries_next k nt ix (index_entries ix) d = (d', (st, Some OutOfFuel))) /\
  forall k name, exists d', file_name_find k nt ix name d = (d', Some OutOfFuel).
Proof.
  intros Hib Hb Hl W Hno Hcs D Hch Hd1 Hd2 Hfu Hfa Hd.
  destruct (directory_index_ok nt img f offs clean root alloc Hb Hl W Hno D fuel d Hfu) as (ix & E & Hix). exists ix. split; auto.
  assert (Hr : bytes_ok (root_entries root)) by (apply bytes_ok_slice; exact (root_bytes_ok nt img f offs clean root alloc Hb Hl W D)).
  destruct (dir_child_ok nt img f offs root alloc Hib D v node Hch) as (Hnb & Hns).
  pose proof (faultless_good _ _ Hfa Hd) as Hg. pose proof Hix as (q & Hroot & _).
  assert (Hsub : forall k d, good img true d -> exists d' p, index_subnode k nt ix v d = (d', Ok (mkRanges node (24 + field 4 node 24) (24 + field 4 node 28) p)) /\ good img true d').
  { intros k d0 Hg0. exact (dir_subnode nt img f offs clean root alloc Hib Hb Hl W Hcs D ix k v node d0 Hix Hch Hg0). }
  split.
  - intros k. unfold entries_next, index_entries. rewrite Hroot.
    apply (cycle_iterate (index_subnode k nt ix) (good img true) v node (Hsub k) Hnb Hns Hd2 k (root_entries root) (zlen (root_entries root)) 0 q [] [] d Hr ltac:(lia) ltac:(lia) Hd1 Hg).
  - intros k name. unfold file_name_find, index_find. rewrite Hroot.
    apply (cycle_find (index_subnode k nt ix) (good img true) v node (Hsub k) Hnb Hns Hd2); auto; lia.
Qed.

Lemma fine_true {A} (r : res A) : fine true r <-> r <> OutOfFuel.
Proof. destruct r; cbn; split; intros H; auto; try discriminate; now destruct H. Qed.
Lemma fine_false {A} (r : res A) : fine false r <-> returns r.
Proof. destruct r; cbn; split; auto; discriminate. Qed.
Lemma fine_item_true {A} (x : item A) : fine_item true x <-> x <> Some OutOfFuel.
Proof. destruct x as [r|]; cbn; [rewrite fine_true; split; congruence|split; [discriminate|auto]]. Qed.
Lemma fine_item_false {A} (x : item A) : fine_item false x <-> (forall r, x = Some r -> returns r).
Proof. destruct x as [r|]; cbn; [rewrite fine_false; split; [intros H r' [= <-]; auto|auto]|split; [discriminate|auto]]. Qed.

Lemma directory_terminates nt img f offs clean root alloc fuel d : bytes_ok img -> bytes_ok (f_data f) -> 24 <= zlen (f_data f) ->
  attr_walk (f_data f) (field 2 (f_data f) 20) offs clean -> no_attribute_list (f_data f) offs -> 1 <= cluster_size nt ->
  is_directory (cluster_size nt) img (f_data f) offs root alloc -> arrays_clear (cluster_size nt) (root_record_size root) alloc ->
  acyclic (index_child (cluster_size nt) root alloc) ->
  (length offs < fuel)%nat -> faultless d -> d_img d = img ->
  exists ix, directory_index fuel nt f d = (d, Ok ix) /\
  (exists N, forall k n, (N <= k)%nat ->
     Forall (fun x => x <> Some OutOfFuel) (iterate (with_dev (entries_next k nt ix)) n (index_entries ix, d))) /\
  forall K (kp : list Z -> position -> res K) cmp, (forall s p, kp s p <> OutOfFuel) -> (forall k, cmp k <> OutOfFuel) ->
    exists N, forall k, (N <= k)%nat -> snd (index_find kp cmp k nt ix d) <> Some OutOfFuel.
Proof.
  intros Hib Hb Hl W Hno Hcs D Hcl Hac Hfu Hfa Hd.
  destruct (directory_total nt img f offs clean root alloc fuel d true) as (ix & E & (N & H1) & H2); auto; try discriminate.
  exists ix. split; auto. split.
  - exists N. intros k n Hk. eapply Forall_impl; [|apply (H1 k n Hk)]. intros x. apply fine_item_true.
  - intros K kp cmp K1 K2. destruct (H2 K kp cmp) as (M & H); [intros; now apply fine_true|intros; now apply fine_true|]. exists M. intros k Hk. now apply fine_item_true, H.
Qed.
Lemma directory_no_panic nt img f offs clean root alloc fuel d : bytes_ok img -> bytes_ok (f_data f) -> 24 <= zlen (f_data f) ->
  attr_walk (f_data f) (field 2 (f_data f) 20) offs clean -> no_attribute_list (f_data f) offs -> 1 <= cluster_size nt ->
  is_directory (cluster_size nt) img (f_data f) offs root alloc -> arrays_clear (cluster_size nt) (root_record_size root) alloc ->
  acyclic (index_child (cluster_size nt) root alloc) -> sizes_small (cluster_size nt) (root_record_size root) alloc ->
  no_short_entry (index_child (cluster_size nt) root alloc) (root_entries root) ->
  (length offs < fuel)%nat -> faultless d -> d_img d = img ->
  exists ix, directory_index fuel nt f d = (d, Ok ix) /\
  (exists N, forall k n, (N <= k)%nat ->
     Forall (fun x => forall r, x = Some r -> returns r) (iterate (with_dev (entries_next k nt ix)) n (index_entries ix, d))) /\
  forall K (kp : list Z -> position -> res K) cmp, (forall s p, returns (kp s p)) -> (forall k, returns (cmp k)) ->
    exists N, forall k r, (N <= k)%nat -> snd (index_find kp cmp k nt ix d) = Some r -> returns r.
Proof.
  intros Hib Hb Hl W Hno Hcs D Hcl Hac Hsz Hsh Hfu Hfa Hd.
  destruct (directory_total nt img f offs clean root alloc fuel d false) as (ix & E & (N & H1) & H2); auto.
  exists ix. split; auto. split.
  - exists N. intros k n Hk. eapply Forall_impl; [|apply (H1 k n Hk)]. intros x. apply fine_item_false.
  - intros K kp cmp K1 K2. destruct (H2 K kp cmp) as (M & H); [intros; now apply fine_false|intros; now apply fine_false|]. exists M. intros k r Hk.
    now apply fine_item_false, H.
Qed.
