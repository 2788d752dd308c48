(** * Flattened iteration over the attributes of a file with an attribute list. *)
From Verif Require Import Base Dev Types Record DataRuns Stream NonResident Resident Attribute File Guid Structured AttrList
  Spec SpecIndex SpecMisc SpecValues SpecAttrList BaseProofs DevProofs StreamProofs ReaderProofs ResidentProofs NonResidentProofs AttributeProofs FileProofs
  StructuredProofs ValueProofs EvolveProofs AttrListProofs DirectoryProofs AttrListIterProofs AttrListValueProofs.
From Coq Require Import Lia.

Lemma locates_lookup f ty inst : bytes_ok (f_data f) -> 22 <= zlen (f_data f) -> type_known ty ->
  (forall a, locates (f_data f) ty inst a -> find_resident_attribute f ty None (Some inst) = Ok (mkAttr f a None)) /\
  ((forall a, ~ locates (f_data f) ty inst a) -> exists x, find_resident_attribute f ty None (Some inst) = Err x).
Proof.
  intros Hb Hl Hk. split.
  - intros a (before & after & b & W & Hbef & Ht & Hi). eapply lookup_hit; eauto.
  - intros Hno. destruct (walk_total f (field 2 (f_data f) 20) ltac:(apply field_nonneg; auto)) as (offs & b & W).
    pose proof (lookup_first f ty None (Some inst) _ _ Hb Hl W) as H. destruct (find_resident_attribute _ _ _ _) as [a|x| |]; try tauto; eauto.
    destruct H as (l1 & o & l2 & -> & -> & (M1 & M2 & _) & Ho). exfalso. apply (Hno o). exists l1, l2, b. auto.
Qed.

(** What the iteration over the record itself returns. *)
Definition of_raw (f : file) (x : item attribute) : item attr_item :=
  match x with
  | None => None
  | Some (Ok a) => Some (Ok (mkItem f None (at_offset a) None))
  | Some (Err e) => Some (Err e)
  | Some Panic => Some Panic
  | Some OutOfFuel => Some OutOfFuel
  end.

(** [item_shows], and what the iterator that comes with the parts of a value yields. *)
Definition item_is (img : list Z) (nt : ntfs) (ml : list extent) (bs : list Z) (e : list_end) (f : file) (v : view) (x : item attr_item) : Prop :=
  item_shows img nt ml bs e f v x /\
  match v with VParts _ _ _ _ from => forall i l, x = Some (Ok i) -> ai_entries i = Some l -> lyields img bs l from (ends_well e) | _ => True end.

Section Step.
  Context (img : list Z) (nt : ntfs) (mp : Z) (mdata : list Z) (ml : list extent) (bs : list Z) (e : list_end) (f : file).
  Context (Hb : bytes_ok img) (Hmp : mft_position nt = Some mp) (Hfr : 32 <= file_record_size nt <= U16_MAX)
    (Hm : mft_at img mp (file_record_size nt) mdata ml) (Hml : valid_extents (cluster_size nt) img ml).
  Context (Hbs : bytes_ok bs) (Hfb : bytes_ok (f_data f)).
  Notation gd := (good img true).
  Notation shows := (item_is img nt ml bs e f).
  Notation listing := (listed img nt ml bs (f_number f)).

  (** One entry that is shown. *)
  Lemma entry_shown cur sk raw l l1 o offs x d : lyields img bs l (o :: offs) (ends_well e) -> decodes_list_entry bs o x -> gd d ->
    shown bs (f_number f) cur o -> let st := mkAttrs f raw (Some l1) sk in
    (forall p data a, record_stored img nt ml (entry_number bs o) p data -> locates data (entry_type bs o) (entry_instance bs o) a ->
      exists d', gd d' /\
      (attr_resident_at data a -> exists y, attrs_entry_item nt st l x (entry_type bs o) d = (d', (mkAttrs f raw (Some l1) None, y)) /\ shows (VOther (entry_number bs o) p data a) y) /\
      (~ attr_resident_at data a -> exists y, attrs_entry_item nt st l x (entry_type bs o) d = (d', (mkAttrs f raw (Some l1) (Some (entry_instance bs o, entry_type bs o)), y)) /\
         shows (VParts (entry_number bs o) p data a (o :: offs)) y)) /\
    (forall p data, record_stored img nt ml (entry_number bs o) p data -> (forall a, ~ locates data (entry_type bs o) (entry_instance bs o) a) ->
      exists d' y, gd d' /\ attrs_entry_item nt st l x (entry_type bs o) d = (d', (mkAttrs f raw (Some l1) None, Some (Err y)))) /\
    (U64_MAX < entry_number bs o * file_record_size nt \/ disk_position (cluster_size nt) ml (entry_number bs o * file_record_size nt) = None ->
      exists d' y, gd d' /\ attrs_entry_item nt st l x (entry_type bs o) d = (d', (mkAttrs f raw (Some l1) None, Some (Err y)))).
  Proof.
    intros Y D Hg (Hk & Hn & _) st. subst st.
    assert (Ht : forall F, f_number F = le_number x -> bytes_ok (f_data F) -> 22 <= zlen (f_data F) ->
      (forall a, locates (f_data F) (entry_type bs o) (entry_instance bs o) a -> le_to_attribute x F = Ok (mkAttr F a None)) /\
      ((forall a, ~ locates (f_data F) (entry_type bs o) (entry_instance bs o) a) -> exists y, le_to_attribute x F = Err y)).
    { intros F HF HbF HlF. unfold le_to_attribute, le_ty. rewrite HF, Z.eqb_refl. cbn [negb]. rewrite (dle_type _ _ _ D), (dle_instance _ _ _ D).
      fold (entry_type bs o) (entry_instance bs o). rewrite (proj2 (known_type_spec _) Hk). cbn [rbind]. now apply locates_lookup. }
    split; [|split].
    - intros p data a Hr Hloc. destruct (entry_file img nt mp mdata ml bs Hb Hmp Hfr Hm Hml Hbs o x p data d Hr D Hg) as (d' & E & G & Hdb & Hdl).
      set (F := mkFile (mkRecord data (Some p)) (le_number x)) in *.
      destruct (Ht F eq_refl Hdb ltac:(cbn; lia)) as (Ha & _). specialize (Ha a Hloc).
      pose proof Hloc as (before & after & b & W & _ & Hty & Hin).
      destruct (walk_fits F _ _ _ _ _ W ltac:(apply field_nonneg; auto)) as (Ho0 & Hofit).
      exists d'. split; auto. unfold attrs_entry_item. cbn [ax_file ax_raw ax_list]. rewrite E, Ha. cbn [rbind]. unfold attr_is_resident.
      pose proof Hofit as (F1 & F2 & F3). rewrite attr_rd_in by (change (f_data F) with data in *; lia). cbn [rbind at_offset].
      change (f_data F) with data. pose proof (dle_number _ _ _ D) as Hnum. fold (entry_number bs o) in Hnum.
      split; intros Hres; unfold attr_resident_at in Hres.
      + rewrite Hres. cbn [Z.eqb]. eexists. split; [reflexivity|]. split; [|exact Logic.I]. cbn [item_shows]. unfold F. now rewrite Hnum.
      + replace (field 1 data (a + 8) =? 0) with false by lia. rewrite (dle_instance _ _ _ D). eexists. split; [reflexivity|].
        split; [|intros i l2 [= <-] [= <-]; exact Y]. cbn [item_shows]. exists l. unfold F at 1. rewrite Hnum. split; auto. intros parts Hc H56.
        change data with (f_data (mkFile (mkRecord data (Some p)) (entry_number bs o))).
        assert (Hne : parts <> []).
        { inversion Hc as [|? ? Hno|]; subst; [|discriminate]. rewrite Hty, Hin in Hno. unfold entry_instance, entry_type in Hno. tauto. }
        eapply (lv_value img nt mp mdata ml bs (attr_type_at data a) (attr_instance_at data a) _ e l Hb Hmp Hfr Hm Hml Hbs); try reflexivity; auto.
        * now rewrite Hty.
        * exact Y.
        * exact Hc.
    - intros p data Hr Hno. destruct (entry_file img nt mp mdata ml bs Hb Hmp Hfr Hm Hml Hbs o x p data d Hr D Hg) as (d' & E & G & Hdb & Hdl).
      set (F := mkFile (mkRecord data (Some p)) (le_number x)) in *.
      destruct (Ht F eq_refl Hdb ltac:(cbn; lia)) as (_ & Ha). destruct (Ha Hno) as (y & Ey).
      exists d', y. split; auto. unfold attrs_entry_item. cbn [ax_file ax_raw ax_list]. rewrite E, Ey. reflexivity.
    - intros Hp. pose proof (dle_number _ _ _ D) as Hnum. fold (entry_number bs o) in Hnum. destruct Hg as (Hi & Hf).
      destruct (ntfs_file_spec img nt mp mdata ml d (entry_number bs o) Hb (Hf eq_refl) Hi Hmp Hfr Hm Hml) as (d' & F' & I' & E).
      { pose proof (field_nonneg 6 bs (o + 16) Hbs) as B0. pose proof (field_bound 6 bs (o + 16) Hbs ltac:(lia)) as B. fold (entry_number bs o) in B, B0. unfold U64_MAX. lia. }
      exists d', (EInvalidFileRecordNumber (entry_number bs o)). split; [split; auto|]. unfold attrs_entry_item, le_to_file. rewrite Hnum, E.
      destruct (_ <=? U64_MAX) eqn:El; [|reflexivity]. destruct Hp as [Hp|Hp]; [lia|]. rewrite Hp. reflexivity.
  Qed.

  Definition skip_of (cur : option (Z * Z)) : option (Z * Z) := match cur with Some (t, i) => Some (i, t) | None => None end.
  Lemma skip_test cur o ty inst : ty = entry_type bs o -> inst = entry_instance bs o ->
    (match skip_of cur with Some (i, t) => (inst =? i) && (ty =? t) | None => false end) = true <-> continues bs cur o.
  Proof.
    intros -> ->. unfold continues. destruct cur as [[t i]|]; cbn [skip_of]; [|split; discriminate].
    rewrite andb_true_iff, !Z.eqb_eq. split; [intros (-> & ->); auto|]. intros [= -> ->]. auto.
  Qed.

  Lemma skip_false cur o : ~ continues bs cur o ->
    (match skip_of cur with Some (i, t) => (entry_instance bs o =? i) && (entry_type bs o =? t) | None => false end) = false.
  Proof. intros H. apply Bool.not_true_iff_false. rewrite (skip_test cur o _ _ eq_refl eq_refl). exact H. Qed.

  Lemma flat_step cur offs vs : listing cur offs vs -> forall l k raw d, lyields img bs l offs (ends_well e) -> gd d -> (length offs < k)%nat ->
    match vs with
    | [] => exists d' l' k' cur', gd d' /\ lyields img bs l' [] (ends_well e) /\
        attrs_next k nt (mkAttrs f raw (Some l) (skip_of cur)) d = attrs_next (S k') nt (mkAttrs f raw (Some l') (skip_of cur')) d'
    | v :: vs' => exists d' l' cur' offs' y, attrs_next k nt (mkAttrs f raw (Some l) (skip_of cur)) d = (d', (mkAttrs f raw (Some l') (skip_of cur'), y)) /\
        shows v y /\ gd d' /\ lyields img bs l' offs' (ends_well e) /\ listing cur' offs' vs' /\ (length offs' <= length offs)%nat
    end.
  Proof.
    intros L. induction L as [cur|cur o offs vs K N L IH|cur o offs vs K N C L IH|cur o offs vs p data a S R A Hr L IH|cur o offs vs p data a S R A Hr L IH
      |cur o offs vs K L IH|cur o offs vs S R L IH|cur o offs vs p data S R A L IH]; intros l k raw d Y Hg Hk.
    { destruct k as [|k]; [lia|]. exists d, l, k, cur. auto. }
    all: destruct k as [|k]; [lia|]; cbn [length] in Hk; pose proof Y as Y0; cbn [lyields] in Y;
      destruct (Y d Hg) as (d1 & l1 & x & E & D & G & Y1); clear Y; cbn [attrs_next ax_list ax_file ax_raw ax_skip]; rewrite E; unfold le_ty;
      rewrite (dle_type _ _ _ D), (dle_number _ _ _ D), (dle_instance _ _ _ D); fold (entry_type bs o) (entry_number bs o) (entry_instance bs o).
    - rewrite (proj2 (known_type_spec _) K). replace (entry_number bs o =? f_number f) with true by lia.
      specialize (IH l1 k raw d1 Y1 G ltac:(lia)). destruct vs as [|v vs]; [exact IH|].
      destruct IH as (d' & l' & cur' & offs' & y & H1 & H2 & H3 & H4 & H5 & H6). do 5 eexists. splits; eauto. cbn; lia.
    - rewrite (proj2 (known_type_spec _) K). replace (entry_number bs o =? f_number f) with false by lia.
      rewrite (proj2 (skip_test cur o _ _ eq_refl eq_refl) C).
      specialize (IH l1 k raw d1 Y1 G ltac:(lia)). destruct vs as [|v vs]; [exact IH|].
      destruct IH as (d' & l' & cur' & offs' & y & H1 & H2 & H3 & H4 & H5 & H6). do 5 eexists. splits; eauto. cbn; lia.
    - destruct (entry_shown cur (skip_of cur) raw l l1 o offs x d1 Y0 D G S) as (P & _). destruct (P p data a R A) as (d2 & G2 & P1 & _). destruct (P1 Hr) as (y & P2 & P3).
      destruct S as (K & N & C). rewrite (proj2 (known_type_spec _) K). replace (entry_number bs o =? f_number f) with false by lia.
      rewrite (skip_false cur o C). rewrite P2. exists d2, l1, None, offs, y. splits; auto; cbn [length]; lia.
    - destruct (entry_shown cur (skip_of cur) raw l l1 o offs x d1 Y0 D G S) as (P & _). destruct (P p data a R A) as (d2 & G2 & _ & P1). destruct (P1 Hr) as (y & P2 & P3).
      destruct S as (K & N & C). rewrite (proj2 (known_type_spec _) K). replace (entry_number bs o =? f_number f) with false by lia.
      rewrite (skip_false cur o C). rewrite P2. exists d2, l1, (Some (entry_type bs o, entry_instance bs o)), offs, y. splits; auto; cbn [length]; lia.
    - destruct (known_type (entry_type bs o)) eqn:Kt; [apply known_type_spec in Kt; tauto|].
      exists d1, l1, cur, offs. eexists. splits; auto; cbn [length]; [split; [cbn [item_shows]; eauto|exact Logic.I]|lia].
    - destruct (entry_shown cur (skip_of cur) raw l l1 o offs x d1 Y0 D G S) as (_ & _ & P). destruct (P R) as (d2 & y & G2 & P1).
      destruct S as (K & N & C). rewrite (proj2 (known_type_spec _) K). replace (entry_number bs o =? f_number f) with false by lia.
      rewrite (skip_false cur o C). rewrite P1. exists d2, l1, None, offs. eexists. splits; auto; cbn [length]; [split; [cbn [item_shows]; eauto|exact Logic.I]|lia].
    - destruct (entry_shown cur (skip_of cur) raw l l1 o offs x d1 Y0 D G S) as (_ & P & _). destruct (P p data R A) as (d2 & y & G2 & P1).
      destruct S as (K & N & C). rewrite (proj2 (known_type_spec _) K). replace (entry_number bs o =? f_number f) with false by lia.
      rewrite (skip_false cur o C). rewrite P1. exists d2, l1, None, offs. eexists. splits; auto; cbn [length]; [split; [cbn [item_shows]; eauto|exact Logic.I]|lia].
  Qed.
End Step.
Section Flat.
  Context (img : list Z) (nt : ntfs) (mp : Z) (mdata : list Z) (ml : list extent) (bs : list Z) (e : list_end) (f : file).
  Context (Hb : bytes_ok img) (Hmp : mft_position nt = Some mp) (Hfr : 32 <= file_record_size nt <= U16_MAX)
    (Hm : mft_at img mp (file_record_size nt) mdata ml) (Hml : valid_extents (cluster_size nt) img ml).
  Context (Hbs : bytes_ok bs) (Hfb : bytes_ok (f_data f)) (Hend : ends_well e = true).
  Notation gd := (good img true).
  Notation shows := (item_is img nt ml bs e f).
  Notation listing := (listed img nt ml bs (f_number f)).

  (** The record itself, with nothing left in the list. *)
  Lemma flat_raw l skip off offs b d : lyields img bs l [] true -> attr_walk (f_data f) off offs b -> 0 <= off ->
    Forall (fun o => attr_type_at (f_data f) o <> TY_AttributeList) offs -> gd d -> exists d', gd d' /\ forall k,
    attrs_next (S k) nt (mkAttrs f off (Some l) skip) d = (d', (mkAttrs f (fst (raw_next f off)) (Some l) skip, of_raw f (snd (raw_next f off)))).
  Proof.
    intros Y W Ho Hl Hg. cbn [lyields] in Y. destruct (proj1 Y eq_refl d Hg) as (d' & E & G). exists d'. split; auto. intros k.
    cbn [attrs_next ax_list ax_file ax_raw ax_skip]. rewrite E. cbn [ax_list ax_file ax_raw ax_skip].
    destruct (raw_next_spec f off Ho) as (S1 & S2 & S3 & S4).
    inversion W as [? H|? H1 H2|? H1 H2 H3|? l' ? H1 H2 W']; subst.
    - rewrite (S1 H). reflexivity.
    - rewrite (S2 H1 H2). reflexivity.
    - destruct (S3 H1 H2 H3) as (x & ->). reflexivity.
    - rewrite (S4 H1 H2). cbn [fst snd at_offset]. destruct (attr_ty_spec f off None Ho H2) as (T1 & T2). inversion Hl; subst.
      destruct (in_dec Z.eq_dec (attr_type_at (f_data f) off) [16; 32; 48; 64; 80; 96; 112; 128; 144; 160; 176; 192; 208; 224; 240; 256; 4294967295]) as [K|K].
      + rewrite (T1 K). replace (attr_type_at (f_data f) off =? TY_AttributeList) with false by lia. reflexivity.
      + rewrite (T2 K). reflexivity.
  Qed.

  (** The attributes of the record after the list. *)
  Lemma flat_stuck k l skip off x : (forall d, gd d -> exists d', gd d' /\ attrs_next (S k) nt (mkAttrs f off (Some l) skip) d = (d', (mkAttrs f off (Some l) skip, x))) ->
    forall n d, gd d -> iterate (with_dev (attrs_next (S k) nt)) n (mkAttrs f off (Some l) skip, d) = repeat x n.
  Proof.
    intros H. induction n as [|n IH]; intros d Hg; [reflexivity|]. cbn [iterate repeat]. destruct (H d Hg) as (d' & G & E).
    unfold with_dev at 1. cbn [fst snd]. rewrite E. now rewrite IH.
  Qed.

  Lemma flat_tail off offs b : attr_walk (f_data f) off offs b -> 0 <= off -> Forall (fun o => attr_type_at (f_data f) o <> TY_AttributeList) offs ->
    exists x, forall k n l skip d, lyields img bs l [] true -> gd d ->
    iterate (with_dev (attrs_next (S k) nt)) (length offs + n) (mkAttrs f off (Some l) skip, d) =
      map (fun o => Some (Ok (mkItem f None o None))) offs ++ repeat (if b : bool then None else Some (Err x)) n.
  Proof.
    intros W. assert (W0 := W). induction W as [off H|off H Hmk|off H Hmk Hf|off offs b Hmk Hf W IH]; intros Ho Hl; destruct (raw_next_spec f off Ho) as (S1 & S2 & S3 & S4).
    - exists EInvalidTime. intros k n l skip d Y Hg. apply flat_stuck; auto. intros d2 Hg2.
      destruct (flat_raw l skip off [] true d2 Y W0 Ho Hl Hg2) as (d' & G & E). specialize (E k). rewrite (S1 H) in E. eauto.
    - exists EInvalidTime. intros k n l skip d Y Hg. apply flat_stuck; auto. intros d2 Hg2.
      destruct (flat_raw l skip off [] true d2 Y W0 Ho Hl Hg2) as (d' & G & E). specialize (E k). rewrite (S2 H Hmk) in E. eauto.
    - destruct (S3 H Hmk Hf) as (x & Ex). exists x. intros k n l skip d Y Hg. apply flat_stuck; auto. intros d2 Hg2.
      destruct (flat_raw l skip off [] false d2 Y W0 Ho Hl Hg2) as (d' & G & E). specialize (E k). rewrite Ex in E. eauto.
    - pose proof Hf as (F1 & F2 & F3). destruct (IH W ltac:(lia) (Forall_inv_tail Hl)) as (x & IHx). exists x. intros k n l skip d Y Hg.
      destruct (flat_raw l skip off (off :: offs) b d Y W0 Ho Hl Hg) as (d' & G & E). specialize (E k). rewrite (S4 Hmk Hf) in E. cbn [fst snd of_raw at_offset] in E.
      cbn [length map Nat.add iterate app]. unfold with_dev at 1. cbn [fst snd]. rewrite E. f_equal. apply IHx; auto.
  Qed.

  (** The list, then the rest of the record. The first call may be made in another state that leads here. *)
  Lemma flat_list off offs b : attr_walk (f_data f) off offs b -> 0 <= off -> Forall (fun o => attr_type_at (f_data f) o <> TY_AttributeList) offs ->
    exists x, forall m vs cur ents l d k k1 st0 d0, (length ents < k)%nat -> (length ents < k1)%nat -> length vs = m -> listing cur ents vs -> lyields img bs l ents true -> gd d ->
    attrs_next k nt st0 d0 = attrs_next k1 nt (mkAttrs f off (Some l) (skip_of cur)) d ->
    exists xs, Forall2 shows vs xs /\ forall n,
    iterate (with_dev (attrs_next k nt)) (length vs + (length offs + n)) (st0, d0) =
      xs ++ map (fun o => Some (Ok (mkItem f None o None))) offs ++ repeat (if b : bool then None else Some (Err x)) n.
  Proof.
    intros W Ho Hl. destruct (flat_tail off offs b W Ho Hl) as (x & Hx). exists x. induction m as [|m IH]; intros vs cur ents l d k k1 st0 d0 Hk Hk1 Hv L Y Hg E0.
    - destruct vs; [|discriminate]. exists []. split; [constructor|]. intros n. cbn [length Nat.add app].
      destruct k as [|k]; [lia|]. pose proof (flat_step img nt mp mdata ml bs e f Hb Hmp Hfr Hm Hml Hbs Hfb cur ents [] L l k1 off d ltac:(now rewrite Hend) Hg Hk1) as (d' & l' & k' & cur' & G & Y' & E). rewrite Hend in Y'.
      rewrite <- (Hx k n l' (skip_of cur') d' Y' G). destruct (length offs + n)%nat as [|j]; [reflexivity|]. cbn [iterate]. unfold with_dev at 1 3. cbn [fst snd].
      destruct (flat_raw l' (skip_of cur') off offs b d' Y' W Ho Hl G) as (d2 & _ & E2). now rewrite E0, E, !E2.
    - destruct vs as [|v vs]; [discriminate|]. injection Hv as Hv.
      destruct (flat_step img nt mp mdata ml bs e f Hb Hmp Hfr Hm Hml Hbs Hfb cur ents (v :: vs) L l k1 off d ltac:(now rewrite Hend) Hg Hk1) as (d' & l' & cur' & offs' & y & E & Sh & G & Y' & L' & Hle). rewrite Hend in Y'.
      destruct (IH vs cur' offs' l' d' k k _ d' ltac:(lia) ltac:(lia) Hv L' Y' G eq_refl) as (xs & F & It). exists (y :: xs). split; [constructor; auto|]. intros n.
      cbn [length Nat.add iterate app]. unfold with_dev at 1. cbn [fst snd]. rewrite E0, E, It. reflexivity.
  Qed.
End Flat.

(** The attributes of the record before the list. *)
Lemma flat_before nt f lo after b : forall before off, attr_walk (f_data f) off (before ++ lo :: after) b -> 0 <= off ->
  Forall (fun o => attr_type_at (f_data f) o <> TY_AttributeList) before ->
  attr_walk (f_data f) lo (lo :: after) b /\ 0 <= lo /\ forall k n d,
  iterate (with_dev (attrs_next (S k) nt)) (length before + n) (mkAttrs f off None None, d) =
    map (fun o => Some (Ok (mkItem f None o None))) before ++ iterate (with_dev (attrs_next (S k) nt)) n (mkAttrs f lo None None, d).
Proof.
  induction before as [|o before IH]; intros off W Ho Hl.
  - cbn [app] in W. assert (off = lo) as -> by (inversion W; auto). splits; auto.
  - cbn [app] in W. inversion W as [| | |? l ? Hmk Hf W']; subst. pose proof Hf as (F1 & F2 & F3). inversion Hl as [|? ? Hty Hl']; subst.
    destruct (IH _ W' ltac:(lia) Hl') as (W2 & Hlo & It). split; auto. split; auto. intros k n d.
    cbn [length Nat.add iterate map app]. rewrite <- It. unfold with_dev at 1. cbn [fst snd].
    cbn [attrs_next ax_list ax_file ax_raw ax_skip]. destruct (raw_next_spec f o Ho) as (_ & _ & _ & S4). rewrite (S4 Hmk Hf). cbn [at_offset].
    destruct (attr_ty_spec f o None Ho Hf) as (T1 & T2).
    destruct (in_dec Z.eq_dec (attr_type_at (f_data f) o) [16; 32; 48; 64; 80; 96; 112; 128; 144; 160; 176; 192; 208; 224; 240; 256; 4294967295]) as [K|K].
    + rewrite (T1 K). replace (attr_type_at (f_data f) o =? TY_AttributeList) with false by lia. reflexivity.
    + rewrite (T2 K). reflexivity.
Qed.

(** The list in an attribute. *)
Lemma flat_open img nt f lo bs offs e : bytes_ok img -> bytes_ok (f_data f) -> 0 <= lo -> attr_fits (f_data f) lo -> position_sane (f_position f) (zlen (f_data f)) ->
  attr_content (cluster_size nt) img (f_data f) lo bs -> zlen bs + U16_MAX <= U64_MAX -> list_walk bs 0 offs e ->
  bytes_ok bs /\ exists v, attr_value_simple (cluster_size nt) (mkAttr f lo None) = Ok v /\
    lyields img bs (alist_of_sval v) (entries_of (f_data f) lo offs e) (ends_well e).
Proof.
  intros Hb Hfb Ho Hf Hp Hc Hl W. pose proof (zlen_nonneg bs) as Hz. destruct Hc as [bs Hr H22 Hv|l Hr H56 Hro Hv He Hs].
  - destruct (resident_len_bound f lo bs Hfb Ho Hf Hv) as (_ & Hbs). split; auto.
    destruct (attr_resident_value_spec f Hfb lo None Ho Hf H22) as [(bs2 & E & Hv2)|(x & E & Hno)]; [|now destruct (Hno bs)].
    assert (bs2 = bs) by (destruct Hv as (_ & ->), Hv2 as (_ & ->); reflexivity). subst bs2.
    exists (SVRes (res_new bs (pos_add (f_position f) lo))). split.
    { unfold attr_value_simple, attr_is_resident. destruct Hf as (F1 & F2 & F3). rewrite attr_rd_in by lia. cbn [rbind].
      unfold attr_resident_at in Hr. rewrite Hr. cbn [Z.eqb]. rewrite E. reflexivity. }
    unfold entries_of, attr_resident_at in *. rewrite Hr. cbn [Z.eqb].
    assert (EA : alist_of_sval (SVRes (res_new bs (pos_add (f_position f) lo))) = ALResident (zdrop 0 bs) (pos_add (pos_add (f_position f) lo) 0)).
    { cbn [alist_of_sval res_new rv_data]. rewrite zdrop_0 by lia. f_equal. unfold res_data_position, res_new, res_len. cbn [rv_sp rv_data rv_position].
      replace (0 <=? zlen bs) with true by lia. reflexivity. }
    rewrite EA. apply lyields_resident; auto; [unfold U16_MAX in *; lia| |lia].
    intros v Hpv. destruct (f_position f) as [q|] eqn:Eq; [|discriminate]. destruct (Hp q eq_refl) as (P1 & P2).
    destruct Hf as (F1 & F2 & F3). destruct Hv as (V1 & ->). cbn [pos_add] in Hpv.
    pose proof (field2_bound (f_data f) (lo + 20) Hfb). pose proof (field4_bound (f_data f) (lo + 16) Hfb).
    unfold attr_len_at in *. rewrite slice_len by lia. rewrite Z.mod_small in Hpv by (unfold TWO64, U64_MAX in *; lia).
    unfold pos_new in Hpv. replace (q + lo =? 0) with false in Hpv by lia. injection Hpv as <-. lia.
  - split; [now apply bytes_ok_content|].
    rewrite (attr_value_extents f (cluster_size nt) lo None Hfb Ho Hf H56 Hr Hro). pose proof (field8_bound (f_data f) (lo + 48) Hfb).
    set (enc := slice _ _ _) in *. set (p := pos_add _ _). set (size := field 8 (f_data f) (lo + 48)) in *.
    destruct (nr_extents_new (cluster_size nt) img l enc p size Hv He) as (v & E & I0 & P0 & _).
    rewrite E. cbn [rbind]. eexists. split; [reflexivity|]. unfold entries_of, attr_resident_at in *. replace (field 1 _ (lo + 8) =? 0) with false by lia.
    cbn [alist_of_sval]. rewrite content_size in Hl by (auto; lia).
    apply (lyields_nonres (cluster_size nt) img l enc p size) with (q := 0); auto; try lia; [now apply bytes_ok_content|].
    split; auto. split; auto.
    intros _. eapply (nr_fresh_position (cluster_size nt) img l enc p size); eauto; lia.
Qed.

Lemma iterate_in_mono {S A} (next : S -> S * item A) : forall n m s x, (n <= m)%nat -> In x (iterate next n s) -> In x (iterate next m s).
Proof.
  induction n as [|n IH]; intros [|m] s x H Hi; cbn [iterate] in *; try contradiction; try lia.
  destruct (next s) as [s' y]. destruct Hi as [->|Hi]; [now left|right; apply IH; [lia|exact Hi]].
Qed.

Lemma flat_attributes img nt ml f before lo after clean bs offs e vs d fuel : file_with_list img nt ml f before lo after clean bs offs e vs ->
  faultless d -> d_img d = img -> (length offs + 2 < fuel)%nat ->
  exists st x xs, attrs_start f = Ok st /\
    Forall2 (item_shows img nt ml bs e f) (map VBase before ++ vs ++ map VBase after) xs /\
    forall n, iterate (with_dev (attrs_next fuel nt)) (length xs + n) (st, d) = xs ++ repeat (if clean : bool then None else Some (Err x)) n.
Proof.
  intros [Hb (mp & mdata & Hmp & Hm) Hfr Hml (Hfb & H22) Hp W Hbe Haf Hty Hc Hl Wl Hend L] Hf Hi Hfu.
  destruct (flat_before nt f lo after clean before _ W (field_nonneg 2 _ 20 Hfb) Hbe) as (W2 & Hlo & Itb).
  inversion W2 as [| | |? ? ? Hmk Hfit W3]; subst. pose proof Hfit as (F1 & F2 & F3).
  destruct (flat_open (d_img d) nt f lo bs offs e Hb Hfb Hlo Hfit Hp Hc Hl Wl) as (Hbs & v & Ev & Y).
  assert (Hew : ends_well e = true) by (destruct e; auto; now destruct Hend). rewrite Hew in Y.
  destruct (flat_list (d_img d) nt mp mdata ml bs e f Hb Hmp Hfr Hm Hml Hbs Hfb Hew _ after clean W3 ltac:(lia) Haf) as (x & Hx).
  destruct fuel as [|k]; [lia|].
  assert (Hle : (length (entries_of (f_data f) lo offs e) <= length offs + 1)%nat).
  { unfold entries_of. destruct (_ =? 0); [lia|]. destruct e; cbn [with_cut]; rewrite ?app_length; cbn [length]; lia. }
  destruct (Hx (length vs) vs None (entries_of (f_data f) lo offs e) (alist_of_sval v) d (S k) k (mkAttrs f lo None None) d ltac:(lia) ltac:(lia) eq_refl L Y (conj eq_refl (fun _ => Hf))) as (xs & F & It).
  { cbn [attrs_next ax_list ax_file ax_raw ax_skip]. destruct (raw_next_spec f lo Hlo) as (_ & _ & _ & S4). rewrite (S4 Hmk Hfit).
    destruct (attr_ty_spec f lo None Hlo Hfit) as (T1 & _). rewrite Hty in T1. rewrite T1 by (cbn; tauto). cbn [Z.eqb]. change (32 =? TY_AttributeList) with true.
    cbn match. rewrite Ev. reflexivity. }
  set (base := map (fun o => Some (Ok (mkItem f None o None)))) in *.
  exists (mkAttrs f (field 2 (f_data f) 20) None None), x, (base before ++ xs ++ base after). split; [now apply attrs_start_eq|]. split.
  - assert (Hbase : forall l, Forall2 (item_shows (d_img d) nt ml bs e f) (map VBase l) (base l)).
    { clear. intros l. induction l; constructor; cbn; auto. }
    apply Forall2_app; [apply Hbase|]. apply Forall2_app; [|apply Hbase]. clear - F. induction F as [|v y vs xs (H & _) _ IH]; constructor; auto.
  - intros n. assert (Fl : length vs = length xs) by (clear - F; induction F; cbn; congruence). unfold base in *. rewrite !app_length, !map_length. rewrite <- Fl.
    replace (length before + (length vs + length after) + n)%nat with (length before + (length vs + (length after + n)))%nat by lia.
    rewrite Itb. rewrite It. now rewrite <- !app_assoc.
Qed.
