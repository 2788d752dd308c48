(** * Iteration over the entries of one index node. *)
From Verif Require Import Base Dev Types Record DataRuns Stream NonResident Resident Attribute File Structured AttrList Upcase Index
  Spec SpecIndex BaseProofs StructuredProofs.

Lemma pos_add_add p len a b : position_sane p len -> 0 <= a -> 0 <= b -> a + b <= len -> pos_add (pos_add p a) b = pos_add p (a + b).
Proof.
  intros Hp Ha Hb Hl. destruct p as [v|]; [|reflexivity]. destruct (Hp v eq_refl) as (H1 & H2). unfold U64_MAX in *.
  unfold pos_add at 2, pos_new. rewrite Z.mod_small by (unfold TWO64; lia). replace (v + a =? 0) with false by lia.
  unfold pos_add. now rewrite Z.add_assoc.
Qed.
Lemma pos_add_0 p len : position_sane p len -> 0 <= len -> pos_add p 0 = p.
Proof.
  intros Hp Hl. destruct p as [v|]; [|reflexivity]. destruct (Hp v eq_refl) as (H1 & H2). unfold U64_MAX in *.
  unfold pos_add, pos_new. rewrite Z.add_0_r, Z.mod_small by (unfold TWO64; lia). now replace (v =? 0) with false by lia.
Qed.

Section Node.
  Context (data : list Z) (Hb : bytes_ok data).

  Lemma entry_len_bound o : 0 <= entry_len data o <= U16_MAX.
  Proof. apply field2_bound; auto. Qed.

  Lemma zdrop_slice o : 0 <= o -> o <= zlen data -> zdrop o data = slice data o (zlen data).
  Proof. intros. unfold slice. rewrite ztake_all; auto. rewrite zlen_zdrop. lia. Qed.

  (** [ie_new] on the rest of the node. *)
  Lemma ie_new_spec o p : 0 <= o <= zlen data ->
    (entry_fits data o -> ie_new (slice data o (zlen data)) p = Ok (mkIE (entry_bytes data o) p)) /\
    (~ entry_fits data o -> exists x, ie_new (slice data o (zlen data)) p = Err x /\
       x = EInvalidIndexEntrySize p (if zlen data <? o + 16 then 16 else entry_len data o)
             (if zlen data <? o + 16 then zlen data - o else (zlen data - o) mod 65536)).
  Proof.
    intros Ho. unfold ie_new, ie_length, entry_fits. cbn [ie_slice]. rewrite slice_len by lia. pose proof (entry_len_bound o) as Hl.
    destruct (zlen data - o <? 16) eqn:E.
    { split; [lia|]. intros _. eexists. split; [reflexivity|]. now replace (zlen data <? o + 16) with true by lia. }
    unfold rd_u16. rewrite rd_in by (rewrite ?slice_len; lia). cbn [rbind]. rewrite field_slice by lia. fold (entry_len data o).
    destruct (zlen data - o <? entry_len data o) eqn:E2.
    - split; [lia|]. intros _. eexists. split; [reflexivity|]. now replace (zlen data <? o + 16) with false by lia.
    - split; [|lia]. intros _. unfold idx_range. rewrite get_range_in by (rewrite ?slice_len; lia). cbn [rbind].
      rewrite slice_slice by lia. unfold entry_bytes. do 3 f_equal. lia.
  Qed.

  (** Exactly the entry's own bytes. *)
  Lemma ie_new_exact o p : 0 <= o -> entry_fits data o -> 16 <= entry_len data o -> ie_new (entry_bytes data o) p = Ok (mkIE (entry_bytes data o) p).
  Proof.
    intros Ho (F1 & F2) Hl. unfold ie_new, ie_length, entry_bytes. cbn [ie_slice]. rewrite slice_len by lia.
    replace (o + entry_len data o - o <? 16) with false by lia. unfold rd_u16. rewrite rd_in by (rewrite ?slice_len; lia). cbn [rbind].
    rewrite field_slice by lia. fold (entry_len data o). replace (o + entry_len data o - o <? entry_len data o) with false by lia.
    unfold idx_range. rewrite get_range_in by (rewrite ?slice_len; lia). cbn [rbind]. rewrite slice_slice by lia. do 3 f_equal. lia.
  Qed.

  Lemma ie_length_bytes o p : 0 <= o -> entry_fits data o ->
    ie_length (mkIE (entry_bytes data o) p) = if entry_len data o <? 10 then Panic else Ok (entry_len data o).
  Proof.
    intros Ho (F1 & F2). pose proof (entry_len_bound o) as Hl. unfold ie_length, entry_bytes, rd_u16. cbn [ie_slice].
    destruct (entry_len data o <? 10) eqn:E.
    - destruct (rd_cases 2 (slice data o (o + entry_len data o)) 8) as [H|H]; auto. apply rd_ok in H. rewrite slice_len in H by lia. lia.
    - rewrite rd_in by (rewrite ?slice_len; lia). now rewrite field_slice by lia.
  Qed.
  Lemma ie_flags_bytes o p : 0 <= o -> entry_fits data o ->
    ie_flags (mkIE (entry_bytes data o) p) = if entry_len data o <? 13 then Panic else Ok (Z.land (field 1 data (o + 12)) 3).
  Proof.
    intros Ho (F1 & F2). pose proof (entry_len_bound o) as Hl. unfold ie_flags, entry_bytes, rd_u8. cbn [ie_slice].
    destruct (entry_len data o <? 13) eqn:E.
    - destruct (rd_cases 1 (slice data o (o + entry_len data o)) 12) as [H|H]; [rewrite H; auto|]. apply rd_ok in H. rewrite slice_len in H by lia. lia.
    - rewrite rd_in by (rewrite ?slice_len; lia). cbn [rbind]. now rewrite field_slice by lia.
  Qed.
  Lemma flags_bit x i : (i = 0 \/ i = 1) -> Z.testbit (Z.land x 3) i = Z.testbit x i.
  Proof. intros [-> | ->]; rewrite Z.land_spec; cbn; apply andb_true_r. Qed.
  Lemma ie_is_last_bytes o p : 0 <= o -> entry_fits data o ->
    ie_is_last (mkIE (entry_bytes data o) p) = if entry_len data o <? 13 then Panic else Ok (entry_is_last data o).
  Proof.
    intros Ho Hf. unfold ie_is_last. rewrite (ie_flags_bytes o p Ho Hf). destruct (_ <? 13); cbn [rbind]; auto. now rewrite flags_bit by auto.
  Qed.
  Lemma ie_has_subnode_bytes o p : 0 <= o -> entry_fits data o ->
    ie_has_subnode (mkIE (entry_bytes data o) p) = if entry_len data o <? 13 then Panic else Ok (entry_has_subnode data o).
  Proof.
    intros Ho Hf. unfold ie_has_subnode. rewrite (ie_flags_bytes o p Ho Hf). destruct (_ <? 13); cbn [rbind]; auto. now rewrite flags_bit by auto.
  Qed.

  (** ** [IndexNodeEntryRanges::next] *)
  Context (stop : Z) (Hstop : stop <= zlen data).

  Lemma ranges_next_spec o p : 0 <= o ->
    (stop <= o -> ranges_next (mkRanges data o stop p) = (mkRanges data o stop p, None)) /\
    (o < stop -> ~ entry_fits data o -> exists x, ranges_next (mkRanges data o stop p) = (mkRanges data o stop p, Some (Err x))) /\
    (o < stop -> entry_fits data o -> entry_len data o < 13 -> ranges_next (mkRanges data o stop p) = (mkRanges data o stop p, Some Panic)) /\
    (o < stop -> entry_fits data o -> 13 <= entry_len data o ->
       ranges_next (mkRanges data o stop p) =
         (if entry_is_last data o then mkRanges data (zlen data) stop p else mkRanges data (o + entry_len data o) stop (pos_add p (entry_len data o)),
          Some (Ok (mkER o (o + entry_len data o) p)))).
  Proof.
    intros Ho. unfold ranges_next. cbn [rg_data rg_start rg_end rg_position]. split; [|split; [|split]].
    - intros H. now replace (stop <=? o) with true by lia.
    - intros H Hf. replace (stop <=? o) with false by lia. unfold idx_range. rewrite get_range_in by lia. cbn [rbind].
      destruct (ie_new_spec o p ltac:(lia)) as (_ & K). destruct (K Hf) as (x & E & _). rewrite E. cbn [rbind]. eauto.
    - intros H Hf Hl. replace (stop <=? o) with false by lia. unfold idx_range. rewrite get_range_in by lia. cbn [rbind].
      destruct (ie_new_spec o p ltac:(lia)) as (K & _). rewrite (K Hf). cbn [rbind]. rewrite ie_length_bytes by auto.
      destruct (_ <? 10); cbn [rbind]; [reflexivity|]. rewrite ie_is_last_bytes by auto. now replace (entry_len data o <? 13) with true by lia.
    - intros H Hf Hl. replace (stop <=? o) with false by lia. unfold idx_range. rewrite get_range_in by lia. cbn [rbind].
      destruct (ie_new_spec o p ltac:(lia)) as (K & _). rewrite (K Hf). cbn [rbind]. rewrite ie_length_bytes by auto.
      replace (_ <? 10) with false by lia. cbn [rbind]. rewrite ie_is_last_bytes by auto. replace (entry_len data o <? 13) with false by lia.
      cbn [rbind]. destruct (entry_is_last data o); reflexivity.
  Qed.

  (** ** [NtfsIndexNodeEntries::next] *)
  Lemma node_entries_next_spec o p : 0 <= o <= zlen data ->
    let st := mkNE (slice data o (zlen data)) p in
    (zlen data <= o -> node_entries_next st = (st, None)) /\
    (o < zlen data -> ~ entry_fits data o -> exists x, node_entries_next st = (st, Some (Err x))) /\
    (o < zlen data -> entry_fits data o -> entry_len data o < 13 -> node_entries_next st = (st, Some Panic)) /\
    (o < zlen data -> entry_fits data o -> 13 <= entry_len data o ->
       node_entries_next st =
         (if entry_is_last data o then mkNE [] p else mkNE (slice data (o + entry_len data o) (zlen data)) (pos_add p (entry_len data o)),
          Some (Ok (mkIE (entry_bytes data o) p)))).
  Proof.
    intros Ho st. assert (Hst : ne_slice st = slice data o (zlen data)) by reflexivity.
    assert (Hpos : ne_position st = p) by reflexivity.
    assert (Hc : forall A (a b : A), o < zlen data -> match ne_slice st with [] => a | _ => b end = b).
    { intros A a b H. rewrite Hst. destruct (slice data o (zlen data)) eqn:E; auto. apply (f_equal zlen) in E. rewrite slice_len in E by lia.
      change (zlen (@nil Z)) with 0 in E. lia. }
    unfold node_entries_next. split; [|split; [|split]].
    - intros H. replace o with (zlen data) in Hst by lia. unfold slice in Hst. rewrite zdrop_all in Hst by lia. rewrite ztake_nil in Hst. now rewrite Hst.
    - intros H Hf. rewrite Hc by auto. rewrite Hst, Hpos. destruct (ie_new_spec o p Ho) as (_ & K). destruct (K Hf) as (x & E & _). rewrite E. cbn [rbind]. eauto.
    - intros H Hf Hl. rewrite Hc by auto. rewrite Hst, Hpos. destruct (ie_new_spec o p Ho) as (K & _). rewrite (K Hf). cbn [rbind].
      rewrite ie_is_last_bytes by (auto; lia). now replace (entry_len data o <? 13) with true by lia.
    - intros H Hf Hl. rewrite Hc by auto. rewrite Hst, Hpos. destruct (ie_new_spec o p Ho) as (K & _). rewrite (K Hf). cbn [rbind].
      rewrite ie_is_last_bytes by (auto; lia). replace (entry_len data o <? 13) with false by lia. cbn [rbind].
      destruct (entry_is_last data o); [reflexivity|]. rewrite ie_length_bytes by (auto; lia). replace (_ <? 10) with false by lia. cbn [rbind].
      destruct Hf as (F1 & F2). unfold idx_range. rewrite slice_len by lia. rewrite get_range_in by (rewrite ?slice_len; lia). cbn [rbind].
      rewrite slice_slice by lia. do 3 f_equal. lia.
  Qed.
End Node.

Lemma node_entries_nil p : node_entries_next (mkNE [] p) = (mkNE [] p, None).
Proof. reflexivity. Qed.

Lemma iterate_fixed {S A} (next : S -> S * item A) s x n : next s = (s, x) -> iterate next n s = repeat x n.
Proof. intros H. induction n; cbn [iterate repeat]; auto. rewrite H. now rewrite IHn. Qed.

(** Every node content has a walk. *)
Lemma entry_fits_dec data o : entry_fits data o \/ ~ entry_fits data o.
Proof. unfold entry_fits. lia. Qed.
Lemma node_walk_exists data stop : bytes_ok data -> stop <= zlen data -> forall o, 0 <= o -> exists l e, node_walk data stop o l e.
Proof.
  intros Hb Hs o Ho. remember (Z.to_nat (stop - o)) as n eqn:Hn. revert o Ho Hn.
  induction n as [n IH] using (well_founded_induction lt_wf). intros o Ho Hn.
  destruct (Z_le_gt_dec stop o) as [H|H]; [do 2 eexists; now apply nw_end|].
  destruct (entry_fits_dec data o) as [Hf|Hf]; [|do 2 eexists; apply nw_bad; auto; lia].
  destruct (Z_lt_ge_dec (entry_len data o) 13) as [Hl|Hl]; [do 2 eexists; apply nw_short; auto; lia|].
  destruct (entry_is_last data o) eqn:El; [do 2 eexists; apply nw_last; auto; lia|].
  destruct (IH (Z.to_nat (stop - (o + entry_len data o)))) with (o := o + entry_len data o) as (l & e & W); try lia.
  exists (o :: l), e. apply nw_entry; auto; lia.
Qed.
Lemma node_walk_fun data stop o l1 e1 l2 e2 : node_walk data stop o l1 e1 -> node_walk data stop o l2 e2 -> l1 = l2 /\ e1 = e2.
Proof.
  intros W. revert l2 e2. induction W; intros l2 e2 W2; inversion W2; subst; try (split; reflexivity); try lia; try tauto; try congruence.
  match goal with K : node_walk _ _ (o + _) _ _, L : node_walk _ _ (o + _) _ _ |- _ => first [destruct (IHW _ _ K) as (-> & ->)|destruct (IHW _ _ L) as (-> & ->)] end. auto.
Qed.
(** The entries are consecutive and inside the node. *)
Lemma node_walk_in data stop o l e : bytes_ok data -> node_walk data stop o l e -> 0 <= o ->
  Forall (fun x => o <= x < stop /\ entry_fits data x /\ 13 <= entry_len data x) l.
Proof.
  intros Hb W. induction W; intros Ho; try constructor; auto; [split; [lia|auto]|split; [lia|auto]|].
  specialize (IHW ltac:(lia)). eapply Forall_impl; [|exact IHW]. cbn. intros x (K1 & K2 & K3). split; [lia|auto].
Qed.
Lemma node_walk_length data stop o l e : bytes_ok data -> node_walk data stop o l e -> 0 <= o -> 13 * (zlen l - 1) <= Z.max 0 (stop - o).
Proof.
  intros Hb W. induction W; intros Ho; [unfold zlen; cbn [length]; lia..|]. specialize (IHW ltac:(lia)). rewrite zlen_cons.
  inversion W; subst; [unfold zlen in *; cbn [length] in *; lia..|rewrite zlen_cons in *; lia].
Qed.

Lemma ranges_iteration data stop : bytes_ok data -> stop <= zlen data -> forall o l e, node_walk data stop o l e -> 0 <= o ->
  forall p0, position_sane p0 (zlen data) -> exists err, forall n,
  iterate ranges_next (length l + n) (mkRanges data o stop (pos_add p0 o)) =
    map (fun x => Some (Ok (mkER x (x + entry_len data x) (pos_add p0 x)))) l ++ repeat (after_node e err) n.
Proof.
  intros Hb Hs o l e W. induction W; intros Ho p0 Hp.
  - exists (EIo OtherIo). intros n. apply iterate_fixed. now apply (ranges_next_spec data Hb stop Hs o).
  - destruct (proj1 (proj2 (ranges_next_spec data Hb stop Hs o (pos_add p0 o) Ho)) H H0) as (x & E).
    exists x. intros n. now apply iterate_fixed.
  - exists (EIo OtherIo). intros n. apply iterate_fixed. now apply (ranges_next_spec data Hb stop Hs o).
  - exists (EIo OtherIo). intros n. cbn [length Nat.add iterate map app].
    rewrite (proj2 (proj2 (proj2 (ranges_next_spec data Hb stop Hs o (pos_add p0 o) Ho))) H H0 H1). rewrite H2. f_equal.
    apply iterate_fixed. apply (ranges_next_spec data Hb stop Hs (zlen data)); lia.
  - destruct (IHW ltac:(lia) p0 Hp) as (err & IH). exists err. intros n. cbn [length Nat.add iterate map app].
    rewrite (proj2 (proj2 (proj2 (ranges_next_spec data Hb stop Hs o (pos_add p0 o) Ho))) H H0 H1). rewrite H2. f_equal.
    destruct H0 as (F1 & F2). rewrite (pos_add_add p0 (zlen data)) by (auto; lia). apply IH.
Qed.

Lemma node_iteration data : bytes_ok data -> forall o l e, node_walk data (zlen data) o l e -> 0 <= o <= zlen data ->
  forall p0, position_sane p0 (zlen data) -> exists err, forall n,
  iterate node_entries_next (length l + n) (mkNE (slice data o (zlen data)) (pos_add p0 o)) =
    map (fun x => Some (Ok (mkIE (entry_bytes data x) (pos_add p0 x)))) l ++ repeat (after_node e err) n.
Proof.
  intros Hb o l e W. induction W; intros Ho p0 Hp.
  - exists (EIo OtherIo). intros n. apply iterate_fixed. now apply (node_entries_next_spec data Hb o).
  - destruct (proj1 (proj2 (node_entries_next_spec data Hb o (pos_add p0 o) Ho)) H H0) as (x & E).
    exists x. intros n. now apply iterate_fixed.
  - exists (EIo OtherIo). intros n. apply iterate_fixed. now apply (node_entries_next_spec data Hb o).
  - exists (EIo OtherIo). intros n. cbn [length Nat.add iterate map app].
    rewrite (proj2 (proj2 (proj2 (node_entries_next_spec data Hb o (pos_add p0 o) Ho))) H H0 H1). rewrite H2. f_equal.
    apply iterate_fixed. reflexivity.
  - destruct H0 as (F1 & F2). destruct (IHW ltac:(lia) p0 Hp) as (err & IH). exists err. intros n. cbn [length Nat.add iterate map app].
    rewrite (proj2 (proj2 (proj2 (node_entries_next_spec data Hb o (pos_add p0 o) Ho))) H (conj F1 F2) H1). rewrite H2. f_equal.
    rewrite (pos_add_add p0 (zlen data)) by (auto; lia). apply IH.
Qed.
