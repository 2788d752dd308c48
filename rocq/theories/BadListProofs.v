(** * Iteration and lookup with an attribute list that ends in bytes which are no entry. *)
From Verif Require Import Base Dev Types Record DataRuns Stream NonResident Resident Attribute File Guid Structured AttrList Upcase Volume
  Spec SpecIndex SpecMisc SpecValues SpecAttrList BaseProofs DevProofs StreamProofs ReaderProofs ResidentProofs NonResidentProofs AttributeProofs FileProofs
  StructuredProofs ValueProofs MiscProofs EvolveProofs AttrListProofs DirectoryProofs AttrListIterProofs AttrListValueProofs FlatProofs FlatSearchProofs.
From Coq Require Import Lia.

Section Bad.
  Context (img : list Z) (nt : ntfs) (mp : Z) (mdata : list Z) (ml : list extent) (bs : list Z) (f : file).
  Context (Hb : bytes_ok img) (Hmp : mft_position nt = Some mp) (Hfr : 32 <= file_record_size nt <= U16_MAX)
    (Hm : mft_at img mp (file_record_size nt) mdata ml) (Hml : valid_extents (cluster_size nt) img ml).
  Context (Hbs : bytes_ok bs) (Hfb : bytes_ok (f_data f)).
  Notation gd := (good img true).
  Notation yields := (fyields img nt ml bs ListMalformed f).

  (** At the bytes that are no entry. *)
  Lemma bad_end l : lyields img bs l [] false -> exists x, forall off skip d, gd d -> exists d', gd d' /\
    forall k, attrs_next (S k) nt (mkAttrs f off (Some l) skip) d = (d', (mkAttrs f off (Some l) skip, Some (Err x))).
  Proof.
    intros (_ & Y). destruct (Y eq_refl) as (x & Hx). exists x. intros off skip d Hg. destruct (Hx d Hg) as (d' & E & G). exists d'. split; auto.
    intros k. cbn [attrs_next ax_list ax_file ax_raw ax_skip]. rewrite E. reflexivity.
  Qed.

  Lemma bad_yields off B : forall vs cur ents l, (length ents < B)%nat -> listed img nt ml bs (f_number f) cur ents vs -> lyields img bs l ents false ->
    yields B (mkAttrs f off (Some l) (skip_of cur)) vs false.
  Proof.
    induction vs as [|v vs IH]; intros cur ents l Hk L Y k d HB Hg.
    - destruct (flat_step img nt mp mdata ml bs ListMalformed f Hb Hmp Hfr Hm Hml Hbs Hfb cur ents [] L l k off d Y Hg ltac:(lia)) as (d1 & l' & k' & cur' & G1 & Y' & E).
      destruct (bad_end l' Y') as (x & Hx). destruct (Hx off (skip_of cur') d1 G1) as (d2 & G2 & E2). rewrite E, E2. do 3 eexists. split; [exact G2|reflexivity].
    - destruct (flat_step img nt mp mdata ml bs ListMalformed f Hb Hmp Hfr Hm Hml Hbs Hfb cur ents (v :: vs) L l k off d Y Hg ltac:(lia)) as (d' & l' & cur' & offs' & y & E & Sh & G & Y' & L' & Hle).
      exists d'. eexists. exists y. split; auto. split; [exact E|]. split; auto. apply (IH cur' offs' l'); auto. lia.
  Qed.

  (** The list, then the same error for ever. *)
  Lemma bad_list off : forall vs cur ents l d k k1 st0 d0, (length ents < k)%nat -> (length ents < k1)%nat ->
    listed img nt ml bs (f_number f) cur ents vs -> lyields img bs l ents false -> gd d ->
    attrs_next k nt st0 d0 = attrs_next k1 nt (mkAttrs f off (Some l) (skip_of cur)) d ->
    exists x xs, Forall2 (item_is img nt ml bs ListMalformed f) vs xs /\ forall n,
    iterate (with_dev (attrs_next k nt)) (length vs + n) (st0, d0) = xs ++ repeat (Some (Err x)) n.
  Proof.
    induction vs as [|v vs IH]; intros cur ents l d k k1 st0 d0 Hk Hk1 L Y Hg E0.
    - destruct (flat_step img nt mp mdata ml bs ListMalformed f Hb Hmp Hfr Hm Hml Hbs Hfb cur ents [] L l k1 off d Y Hg Hk1) as (d1 & l' & k' & cur' & G1 & Y' & E).
      destruct (bad_end l' Y') as (x & Hx). destruct (Hx off (skip_of cur') d1 G1) as (d2 & G2 & E2). exists x, []. split; [constructor|].
      intros [|n]; [reflexivity|]. cbn [length Nat.add iterate repeat app]. unfold with_dev at 1. cbn [fst snd]. rewrite E0, E, E2. f_equal.
      destruct k as [|k]; [lia|]. apply (flat_stuck img nt f k l' (skip_of cur') off (Some (Err x))); auto. intros d3 G3.
      destruct (Hx off (skip_of cur') d3 G3) as (d4 & G4 & E4). exists d4. auto.
    - destruct (flat_step img nt mp mdata ml bs ListMalformed f Hb Hmp Hfr Hm Hml Hbs Hfb cur ents (v :: vs) L l k1 off d Y Hg Hk1) as (d' & l' & cur' & offs' & y & E & Sh & G & Y' & L' & Hle).
      destruct (IH cur' offs' l' d' k k _ d' ltac:(lia) ltac:(lia) L' Y' G eq_refl) as (x & xs & F & It). exists x, (y :: xs). split; [constructor; auto|]. intros n.
      cbn [length Nat.add iterate app]. unfold with_dev at 1. cbn [fst snd]. rewrite E0, E, It. reflexivity.
  Qed.
End Bad.

Lemma bad_entries data lo offs : entries_of data lo offs ListMalformed = offs.
Proof. unfold entries_of. now destruct (_ =? 0). Qed.

Lemma bad_file_yields img nt ml f before lo after clean bs offs vs : file_with_bad_list img nt ml f before lo after clean bs offs vs ->
  file_shows img nt ml f bs ListMalformed (length offs + 2) (map VBase before ++ vs) false.
Proof.
  intros [Hb (mp & mdata & Hmp & Hm) Hfr Hml (Hfb & H22) Hp W Hbe Hty Hc Hl Wl L].
  split; [now apply attrs_start_eq|]. pose proof (field_nonneg 2 (f_data f) 20 Hfb) as H0.
  destruct (flat_before nt f lo after clean before _ W H0 Hbe) as (W2 & Hlo & _).
  inversion W2 as [| | |? ? ? Hmk Hfit W3]; subst. pose proof Hfit as (F1 & F2 & F3).
  destruct (flat_open img nt f lo bs offs ListMalformed Hb Hfb Hlo Hfit Hp Hc Hl Wl) as (Hbs & v & Ev & Y). rewrite bad_entries in Y.
  split.
  - eapply yields_before; eauto; [lia|]. replace (length offs + 2)%nat with (S (length offs + 1)) by lia.
    eapply yields_step; [exact (step_into_list nt f lo v Hlo Hmk Hfit Hty Ev)|].
    apply (bad_yields img nt mp mdata ml bs f Hb Hmp Hfr Hm Hml Hbs Hfb _ (length offs + 1) vs None offs (alist_of_sval v) ltac:(lia) L Y).
  - apply Forall_app. split; [|eapply listed_views_ok; [exact Hb|exact L]].
    apply (base_views_ok f _ _ _ _ Hfb H0 W). intros o Hi. apply in_or_app; auto.
Qed.

Lemma bad_attributes img nt ml f before lo after clean bs offs vs d fuel : file_with_bad_list img nt ml f before lo after clean bs offs vs ->
  faultless d -> d_img d = img -> (length offs + 1 < fuel)%nat ->
  exists st x xs, attrs_start f = Ok st /\
    Forall2 (item_shows img nt ml bs ListMalformed f) (map VBase before ++ vs) xs /\
    forall n, iterate (with_dev (attrs_next fuel nt)) (length xs + n) (st, d) = xs ++ repeat (Some (Err x)) n.
Proof.
  intros [Hb (mp & mdata & Hmp & Hm) Hfr Hml (Hfb & H22) Hp W Hbe Hty Hc Hl Wl L] Hf Hi Hfu.
  destruct (flat_before nt f lo after clean before _ W (field_nonneg 2 _ 20 Hfb) Hbe) as (W2 & Hlo & Itb).
  inversion W2 as [| | |? ? ? Hmk Hfit W3]; subst. pose proof Hfit as (F1 & F2 & F3).
  destruct (flat_open (d_img d) nt f lo bs offs ListMalformed Hb Hfb Hlo Hfit Hp Hc Hl Wl) as (Hbs & v & Ev & Y). rewrite bad_entries in Y.
  destruct fuel as [|k]; [lia|].
  destruct (bad_list (d_img d) nt mp mdata ml bs f Hb Hmp Hfr Hm Hml Hbs Hfb _ vs None offs (alist_of_sval v) d (S k) k (mkAttrs f lo None None) d ltac:(lia) ltac:(lia) L Y (conj eq_refl (fun _ => Hf))
    (step_into_list nt f lo v Hlo Hmk Hfit Hty Ev k d)) as (x & xs & F & It).
  set (base := map (fun o => Some (Ok (mkItem f None o None)))) in *.
  exists (mkAttrs f (field 2 (f_data f) 20) None None), x, (base before ++ xs). split; [now apply attrs_start_eq|]. split.
  - assert (Hbase : forall l, Forall2 (item_shows (d_img d) nt ml bs ListMalformed f) (map VBase l) (base l)).
    { clear. intros l. induction l; constructor; cbn; auto. }
    apply Forall2_app; [apply Hbase|]. clear - F. induction F as [|w y vs xs (H & _) _ IH]; constructor; auto.
  - intros n. assert (Fl : length vs = length xs) by (clear - F; induction F; cbn; congruence). unfold base in *. rewrite !app_length, !map_length.
    match goal with |- context [(length before + ?u + n)%nat] => replace (length before + u + n)%nat with (length before + (length vs + n))%nat by (rewrite Fl; unfold item in *; lia) end. rewrite Itb. rewrite It. now rewrite <- !app_assoc.
Qed.

Lemma bad_find img nt ml f before lo after clean bs offs vs ty name fuel d : file_with_bad_list img nt ml f before lo after clean bs offs vs ->
  let views := map VBase before ++ vs in
  faultless d -> d_img d = img -> (length offs + length views + 2 < fuel)%nat ->
  exists r, search_result (f_data f) views false (fun v i => item_shows img nt ml bs ListMalformed f v (Some (Ok i)) /\ at_view (f_data f) (fun data o => is_match data ty name None o) v)
      (fun data o => is_other data ty name None o) (fun data o => is_malformed data ty name None o) r /\
    snd (find_attribute fuel nt f ty name d) = let? x := r in match x with Some i => Ok i | None => Err (EAttributeNotFound (f_position f) ty) end.
Proof. intros H views; intros. apply (find_shows img nt ml f bs ListMalformed (length offs + 2)); auto; [eapply bad_file_yields; eassumption|]. lia. Qed.

Lemma bad_data img nt ml f before lo after clean bs offs vs t stream fuel d : file_with_bad_list img nt ml f before lo after clean bs offs vs ->
  let views := map VBase before ++ vs in
  stream = [] \/ upcase_table nt = Some t /\ zlen t = 65536 /\ Forall unit_ok stream ->
  faultless d -> d_img d = img -> (length offs + length views + 2 < fuel)%nat ->
  search_result (f_data f) views false (fun v i => item_shows img nt ml bs ListMalformed f v (Some (Ok i)) /\ at_view (f_data f) (fun data o => is_stream data t stream o) v)
      (fun data o => not_stream data t stream o) (fun data o => malformed_stream data o) (snd (file_data fuel nt f stream d)).
Proof. intros H views; intros. apply (data_shows img nt ml f bs ListMalformed (length offs + 2)); auto; [eapply bad_file_yields; eassumption|]. lia. Qed.

Lemma bad_name img nt ml f before lo after clean bs offs vs ns parent fuel d : file_with_bad_list img nt ml f before lo after clean bs offs vs ->
  let views := map VBase before ++ vs in
  Forall (fun v => v = VBroken \/ at_view (f_data f) (fun data o => attr_type_at data o = 48 -> attr_resident_at data o /\ o + 22 <= zlen data) v) views ->
  faultless d -> d_img d = img -> (length offs + length views + 2 < fuel)%nat ->
  search_result (f_data f) views false (fun v x => at_view (f_data f) (fun data o => is_name data ns parent o x) v)
      (fun data o => not_name data ns parent o) (fun data o => malformed_name data o) (snd (file_name_of fuel nt f ns parent d)).
Proof. intros H views; intros. apply (name_shows img nt ml f bs ListMalformed (length offs + 2)); auto; [eapply bad_file_yields; eassumption|]. lia. Qed.
