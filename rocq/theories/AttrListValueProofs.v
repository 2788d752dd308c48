(** * Values continued by an attribute list: one stream over the extents of all connected attributes. *)
From Coq Require Import Lia.
From Verif Require Import Base Dev Types Record DataRuns Stream NonResident Resident Attribute File Structured AttrList
  Spec SpecIndex SpecAttrList BaseProofs DevProofs StreamProofs DataRunsProofs ReaderProofs ResidentProofs NonResidentProofs
  AttributeProofs FileProofs StructuredProofs ValueProofs MiscProofs NodeProofs AttrListIterProofs EvolveProofs.

Lemma good_evolves img d d' : good img true d -> evolves d d' -> good img true d'.
Proof. intros (H1 & H2) He. split; [destruct He; congruence|]. intros _. eapply evolves_faultless; eauto. Qed.

(** ** The disk position reported by any reader over data runs *)
Definition lcn_nonzero (e : extent) : Prop := match e_lcn e with Some x => x <> 0 | None => True end.
Lemma distinct_nonzero : forall l z, lcns_distinct z l -> Forall lcn_nonzero l.
Proof.
  induction l as [|[[x|] c] l IH]; intros z H; constructor; cbn [lcns_distinct] in H; try exact Logic.I; try (cbn; tauto); eapply IH; apply H.
Qed.

Section Position.
  Context {S : Type} (o : stream_ops S) (cs : Z) (img : list Z) (l : list extent).
  Context (Hcs : 1 <= cs) (Himg : zlen img <= TWO64) (Hf : Forall (extent_fits cs) l) (Hd : Forall (extent_on_device cs img) l) (Hz : Forall lcn_nonzero l).
  Notation runs := (map (run_of cs) l).
  Lemma aligned_position v q rest : at_pos o runs q v rest -> inside o v -> 0 <= q -> ss_data_position (so_ss o v) = disk_position cs l q.
  Proof.
    intros Hat Hin Hq. unfold ss_data_position. inversion Hat as [done r rest' sp H H0 H1 H2|H H0]; subst.
    - rewrite H0. apply map_split in H as (m1 & e & m2 & -> & <- & <- & <-).
      unfold inside in Hin. rewrite H0 in Hin. cbn [r_sp r_alloc] in Hin.
      rewrite runs_of_size. apply Forall_app in Hf as (Hf1 & Hf2). rewrite disk_position_app by (auto; lia).
      cbn [disk_position]. unfold run_of in *. cbn [r_alloc r_pos] in *. replace (sp <? _) with true by lia.
      unfold run_data_position. cbn [r_sp r_alloc r_pos]. replace (sp <=? _) with true by lia.
      apply Forall_app in Hz as (_ & Hz'). apply Forall_inv in Hz'. unfold lcn_nonzero in Hz'.
      apply Forall_app in Hd as (_ & Hd'). apply Forall_inv in Hd'. destruct Hd' as (_ & D).
      apply Forall_inv in Hf2. destruct Hf2 as (F1 & F2 & F3).
      destruct (e_lcn e) as [lcn|] eqn:El; [|reflexivity]. cbn [pos_add].
      rewrite Z.mod_small by (unfold TWO64 in *; nia). unfold pos_new. replace (_ =? 0) with false by nia. reflexivity.
    - rewrite H. rewrite runs_of_size in H0.
      replace l with (l ++ []) by apply app_nil_r. replace q with (extents_size cs l + (q - extents_size cs l)) by lia.
      rewrite disk_position_app by (auto; lia). reflexivity.
  Qed.
  Lemma aligned_inside v q rest : at_pos o runs q v rest -> ~ extent_end cs l q -> inside o v.
  Proof.
    intros Hat Hn. unfold inside. inversion Hat as [done r rest' sp H H0 H1 H2|H H0]; subst; [|now rewrite H].
    rewrite H0. cbn [r_sp r_alloc]. destruct (Z_lt_le_dec sp (r_alloc r)) as [|Hge]; auto. exfalso. apply Hn.
    apply map_split in H as (m1 & e & m2 & -> & <- & <- & <-). exists m1, e, m2. split; auto.
    rewrite extents_size_app, runs_of_size. cbn [extents_size]. cbn [run_of r_alloc] in *. lia.
  Qed.
End Position.

(** ** What the list iterator still returns *)
Fixpoint lyields (img bs : list Z) (l : alist) (offs : list Z) (b : bool) : Prop :=
  match offs with
  | [] => (b = true -> forall d, good img true d -> exists d', alist_next l d = (d', (l, None)) /\ good img true d') /\
      (b = false -> exists x, forall d, good img true d -> exists d', alist_next l d = (d', (l, Some (Err x))) /\ good img true d')
  | o :: offs' => forall d, good img true d -> exists d' l' e, alist_next l d = (d', (l', Some (Ok e))) /\ decodes_list_entry bs o e /\
      good img true d' /\ lyields img bs l' offs' b
  end.

Definition ends_well (e : list_end) : bool := match e with ListMalformed => false | _ => true end.

Lemma resident_next_dev bs p d : alist_next (ALResident bs p) d = (d, snd (alist_next (ALResident bs p) no_dev)).
Proof. unfold alist_next. destruct bs as [|b t]; [reflexivity|]. destruct (snd (snd _)) as [e|x| |]; try reflexivity. destruct (_ <=? _); reflexivity. Qed.

Lemma lyields_resident img bs p o offs e : bytes_ok bs -> zlen bs <= U64_MAX -> position_sane p (zlen bs) ->
  list_walk bs o offs e -> 0 <= o <= zlen bs -> lyields img bs (ALResident (zdrop o bs) (pos_add p o)) offs (ends_well e).
Proof.
  intros Hb Hl Hp. induction 1 as [o He|o H1 H2|o H1 H2 H3|o offs e H1 H2 H3 W IH]; intros Ho.
  - split; [|intros [=]]. intros _ d Hg. exists d. rewrite zdrop_all by lia. auto.
  - split; [intros [=]|]. intros _. destruct (proj2 (alist_next_resident bs p Hb Hl Hp o no_dev ltac:(lia)) H2) as (x & E). exists x. intros d Hg. exists d.
    rewrite resident_next_dev, E. auto.
  - split; [|intros [=]]. intros _ d Hg. destruct (proj1 (alist_next_resident bs p Hb Hl Hp o d ltac:(lia)) H2) as (e & _ & _ & _ & E). rewrite (E H3). eauto.
  - pose proof (field2_bound bs (o + 4) Hb) as B2. fold (lentry_len bs o) in B2.
    intros d Hg. destruct (proj1 (alist_next_resident bs p Hb Hl Hp o d ltac:(lia)) H2) as (v & D & Dp & E & _).
    rewrite (E H3). do 3 eexists. split; [reflexivity|]. split; auto. split; auto. apply IH. lia.
Qed.

Lemma lyields_nonres cs img l enc p size : valid_extents cs img l -> encodes 0 l enc -> 0 <= size <= extents_size cs l -> size + U16_MAX <= U64_MAX ->
  bytes_ok (file_content cs img l size) -> forall q offs e, list_walk (file_content cs img l size) q offs e -> 0 <= q <= size -> forall v,
  nr_at cs l enc p size q v -> lyields img (file_content cs img l size) (ALNonResident v) (with_cut offs e) (ends_well e).
Proof.
  intros Hv He Hsize Hmax Hb. pose proof (content_size cs img l size Hv Hsize) as Hcs.
  assert (B2 : forall o, 0 <= lentry_len (file_content cs img l size) o) by (intros o; apply (field2_bound _ (o + 4) Hb)).
  induction 1 as [o H0|o H1 H2|o H1 H2 H3|o offs e H1 H2 H3 W IH]; intros Ho v Ha.
  - split; [|intros [=]]. intros _ d Hg. exists d. split; auto. apply (proj1 (alist_next_nonres cs img l enc p size Hv He Hsize Hmax Hb o v d Ha Hg ltac:(lia))). lia.
  - split; [intros [=]|]. intros _. eexists. intros d Hg.
    destruct (proj2 (proj2 (alist_next_nonres cs img l enc p size Hv He Hsize Hmax Hb o v d Ha Hg ltac:(lia))) ltac:(lia) H2) as (d' & E & G). exists d'. split; [exact E|exact G].
  - intros d Hg. destruct (proj1 (proj2 (alist_next_nonres cs img l enc p size Hv He Hsize Hmax Hb o v d Ha Hg ltac:(lia))) ltac:(lia) H2) as (e & d' & v' & D & Dp & E & G & A).
    rewrite E. do 3 eexists. split; [reflexivity|]. split; auto. split; auto. split; [|intros [=]]. intros _ d2 Hg2. exists d2. split; auto.
    specialize (B2 o). apply (proj1 (alist_next_nonres cs img l enc p size Hv He Hsize Hmax Hb _ v' d2 A Hg2 ltac:(lia))). lia.
  - assert (Hc : with_cut (o :: offs) e = o :: with_cut offs e) by (destruct e; reflexivity). rewrite Hc. clear Hc.
    intros d Hg. destruct (proj1 (proj2 (alist_next_nonres cs img l enc p size Hv He Hsize Hmax Hb o v d Ha Hg ltac:(lia))) ltac:(lia) H2) as (e1 & d' & v' & D & Dp & E & G & A).
    rewrite E. do 3 eexists. split; [reflexivity|]. split; auto. split; auto. apply IH; auto. specialize (B2 o). lia.
Qed.

(** The iterator after some steps. *)
Lemma lyields_after img bs : forall k l offs b d, lyields img bs l offs b -> (k <= length offs)%nat -> good img true d ->
  lyields img bs (fst (iterate_state (with_dev alist_next) k (l, d))) (skipn k offs) b /\ good img true (snd (iterate_state (with_dev alist_next) k (l, d))).
Proof.
  induction k as [|k IH]; intros l offs b d Y Hk Hg; [auto|]. destruct offs as [|o offs]; [cbn in Hk; lia|]. cbn [iterate_state skipn].
  destruct (Y d Hg) as (d' & l' & e & E & _ & G & Y'). unfold with_dev at 2 4. cbn [fst snd]. rewrite E. cbn [fst]. apply IH; auto. cbn in Hk. lia.
Qed.

(** ** The connected attributes *)
Lemma lookup_hit f ty inst before o after b : bytes_ok (f_data f) -> 22 <= zlen (f_data f) -> type_known ty ->
  attr_walk (f_data f) (field 2 (f_data f) 20) (before ++ o :: after) b ->
  Forall (is_other (f_data f) ty None (Some inst)) before -> attr_type_at (f_data f) o = ty -> attr_instance_at (f_data f) o = inst ->
  find_resident_attribute f ty None (Some inst) = Ok (mkAttr f o None).
Proof.
  intros Hb Hl Hk W Hbef Hty Hin.
  assert (Hm : is_match (f_data f) ty None (Some inst) o) by (split; auto; split; [intros i [= <-]; auto|discriminate]).
  assert (Hx : forall l1 o' l2, before ++ o :: after = l1 ++ o' :: l2 -> Forall (is_other (f_data f) ty None (Some inst)) l1 ->
     ~ is_other (f_data f) ty None (Some inst) o' -> o' = o).
  { clear - Hbef Hm. induction before as [|x before IH]; intros l1 o' l2 E Hoth Hno.
    - destruct l1 as [|y l1]; [now injection E as <-|]. injection E as <- E. apply Forall_inv in Hoth. destruct (proj1 (cases_exclusive _ _ _ _ _) (conj Hm Hoth)).
    - inversion Hbef; subst. destruct l1 as [|y l1]; [injection E as <- E; tauto|]. injection E as <- E. inversion Hoth; subst. eapply IH; eauto. }
  assert (Hnot : ~ Forall (is_other (f_data f) ty None (Some inst)) (before ++ o :: after)).
  { intros K. apply Forall_app in K as (_ & K). apply Forall_inv in K. apply (proj1 (cases_exclusive _ _ _ _ _) (conj Hm K)). }
  pose proof (lookup_first f ty None (Some inst) _ _ Hb Hl W) as H. destruct (find_resident_attribute _ _ _ _) as [a|e| |]; try tauto.
  - destruct H as (l1 & o' & l2 & E & -> & Hm' & Hoth). do 2 f_equal. eapply Hx; eauto. intros K. apply (proj1 (cases_exclusive _ _ _ _ _) (conj Hm' K)).
  - destruct H as [(_ & _ & K)|[(_ & K)|(l1 & o' & l2 & E & Hoth & Hbad)]]; [tauto|tauto|]. exfalso.
    assert (o' = o) as -> by (eapply Hx; eauto; intros K; apply (proj2 (cases_exclusive _ _ _ _ _) (conj K Hbad))).
    destruct Hbad as [Hbad|(_ & _ & Hbad & _)]; [|congruence]. now rewrite Hty in Hbad.
Qed.

Lemma lv_attr_runs_spec f o : bytes_ok (f_data f) -> 0 <= o -> attr_fits (f_data f) o -> o + 34 <= zlen (f_data f) ->
  ~ attr_resident_at (f_data f) o -> field 2 (f_data f) (o + 32) <= attr_len_at (f_data f) o ->
  let x := (slice (f_data f) (o + field 2 (f_data f) (o + 32)) (o + attr_len_at (f_data f) o), pos_add (f_position f) (o + field 2 (f_data f) (o + 32))) in
  lv_attr_runs (mkAttr f o None) = Ok x /\ (let? at_ := attr_new f o None in attr_nr_data_and_position at_) = Ok x.
Proof.
  intros Hb Ho (H1 & H2 & H3) H4 Hr Hro x.
  assert (E : attr_nr_data_and_position (mkAttr f o None) = Ok x).
  { unfold attr_nr_data_and_position, attr_nr_runs_offset, attr_length. rewrite !attr_rd_in by lia. cbn [rbind at_file at_offset].
    pose proof (field2_bound (f_data f) (o + 32) Hb). unfold x, attr_len_at in *. rewrite get_range_in by lia. reflexivity. }
  split.
  - unfold lv_attr_runs, attr_is_resident. rewrite attr_rd_in by lia. unfold attr_resident_at in Hr. cbn [rbind].
    replace (field 1 (f_data f) (o + 8) =? 0) with false by lia. exact E.
  - rewrite (proj1 (attr_new_spec f o None Ho)) by (split; auto). exact E.
Qed.

Section Value.
  Context (img : list Z) (nt : ntfs) (mp : Z) (mdata : list Z) (ml : list extent) (bs : list Z) (ty inst size : Z) (e : list_end) (l0 : alist).
  Context (Hb : bytes_ok img) (Hmp : mft_position nt = Some mp) (Hfr : 32 <= file_record_size nt <= U16_MAX)
    (Hm : mft_at img mp (file_record_size nt) mdata ml) (Hml : valid_extents (cluster_size nt) img ml).
  Context (Hbs : bytes_ok bs) (Hk : type_known ty).
  Notation cs := (cluster_size nt).
  Notation conn := (connected img nt ml bs ty inst e).
  Notation gd := (good img true).

  Lemma entry_file o x p data d : record_stored img nt ml (field 6 bs (o + 16)) p data -> decodes_list_entry bs o x -> gd d ->
    exists d', le_to_file nt x d = (d', Ok (mkFile (mkRecord data (Some p)) (le_number x))) /\ gd d' /\
      bytes_ok data /\ 32 <= zlen data.
  Proof.
    intros [R1 R2 R3 R4 (R5 & R6)] D (Hi & Hf). unfold le_to_file. rewrite (dle_number _ _ _ D).
    pose proof (field_nonneg 6 bs (o + 16) Hbs) as Hn0.
    destruct (ntfs_file_spec img nt mp mdata ml d (field 6 bs (o + 16)) Hb (Hf eq_refl) Hi Hmp Hfr Hm Hml) as (d' & F' & I' & E).
    { assert (Hnn : 0 <= file_record_size nt) by lia. nia. }
    rewrite E. replace (_ <=? U64_MAX) with true by lia. rewrite R2. replace (p + _ <=? _) with true by lia.
    assert (Hp0 : 0 <= p).
    { assert (0 <= field 6 bs (o + 16) * file_record_size nt) by nia. destruct Hml as [Hcs _ Hfit _ _]. clear - R2 Hcs Hfit H. revert R2 H. generalize (field 6 bs (o + 16) * file_record_size nt).
      induction ml as [|x t IH]; intros z; cbn [disk_position]; [discriminate|]. inversion Hfit as [|? ? (A1 & A2 & A3) Hfit']; subst.
      destruct (z <? _) eqn:Ez; [|intros; eapply IH; eauto; lia]. destruct (e_lcn x); [|discriminate]. intros [= <-] ?. nia. }
    assert (Hpb : bytes_ok (slice img p (p + file_record_size nt))) by now apply bytes_ok_slice.
    assert (Hpl : zlen (slice img p (p + file_record_size nt)) = file_record_size nt) by (rewrite slice_len; lia).
    exists d'. split; [|split; [split; auto|]].
    - f_equal. apply file_of_bytes_spec; auto; [lia|]. exists data. auto.
    - split; [eapply stored_bytes_ok; eauto|]. rewrite (st_len _ _ R5), Hpl. lia.
  Qed.

  Definition cur_rest (a : option attr_state) (cur : list run) : Prop :=
    match a with
    | None => cur = []
    | Some a =>
        match as_runs a with
        | None => cur = []
        | Some s => exists enc p, (let? at_ := attr_new (as_file a) (as_offset a) None in attr_nr_data_and_position at_) = Ok (enc, p) /\ yields cs enc p s cur
        end
    end.
  Definition ent_rest (x : option alist) (parts : list (list extent)) : Prop :=
    match x with None => parts = [] | Some l => exists offs, lyields img bs l offs (ends_well e) /\ conn offs parts end.
  Definition lv_fixed (v : lval) : Prop := lv_ntfs v = nt /\ lv_initial v = l0 /\ lv_instance v = inst /\ lv_ty v = ty /\ lv_size v = size.
  Definition lv_rest (v : lval) (rest : list run) : Prop := lv_fixed v /\
    exists cur parts, rest = cur ++ map (run_of cs) (concat parts) /\ cur_rest (lv_attr v) cur /\ ent_rest (lv_entries v) parts.

  Lemma next_attribute_nil v d : lv_fixed v -> ent_rest (lv_entries v) [] -> gd d -> exists d' v',
    lv_next_attribute v d = (d', (v', Ok false)) /\ gd d' /\ lv_fixed v' /\ lv_attr v' = lv_attr v /\ lv_ss v' = lv_ss v /\ ent_rest (lv_entries v') [].
  Proof.
    intros Hx He Hg. pose proof Hx as (X1 & X2 & X3 & X4 & X5). unfold lv_next_attribute, lv_next_entry. destruct (lv_entries v) as [l|] eqn:El.
    2: { exists d, v. rewrite El. splits; auto. }
    destruct He as (offs & Y & C). inversion C as [Hne|o offs' Hno|]; subst.
    - cbn [lyields] in Y. destruct (proj1 Y ltac:(now destruct e) d Hg) as (d' & E & G). rewrite E. do 2 eexists. split; [reflexivity|]. splits; auto.
      cbn [lv_entries lv_set_entries ent_rest]. exists []. split; auto.
    - cbn [lyields] in Y. destruct (Y d Hg) as (d' & l' & x & E & D & G & _). rewrite E. cbn zeta. rewrite (dle_instance _ _ _ D), X3.
      destruct (field 2 bs (o + 24) =? inst) eqn:Ei.
      + destruct Hno as [Hno|(Hno1 & Hno2)]; [lia|]. unfold le_ty. rewrite (dle_type _ _ _ D). apply known_type_spec in Hno1. rewrite Hno1, X4.
        replace (field 4 bs o =? ty) with false by lia. do 2 eexists. split; [reflexivity|]. splits; auto. cbn. auto.
      + do 2 eexists. split; [reflexivity|]. splits; auto. cbn. auto.
  Qed.

  Lemma next_attribute_cons v l parts d : lv_fixed v -> ent_rest (lv_entries v) (l :: parts) -> gd d -> exists d' v' r,
    lv_next_attribute v d = (d', (v', Ok true)) /\ gd d' /\ lv_fixed v' /\ hd_error (map (run_of cs) l) = Some r /\
    lv_ss v' = mkSS (Some r) (ss_pos (lv_ss v)) (ss_size (lv_ss v)) /\
    cur_rest (lv_attr v') (tl (map (run_of cs) l)) /\ ent_rest (lv_entries v') parts.
  Proof.
    intros Hx He Hg. pose proof Hx as (X1 & X2 & X3 & X4 & X5). unfold lv_next_attribute, lv_next_entry. destruct (lv_entries v) as [al|] eqn:El; [|discriminate He].
    destruct He as (offs & Y & C). inversion C as [| |o offs' p data l' parts' C1 C2 C3 C4 C5 C6 C7]; subst.
    cbn [lyields] in Y. destruct (Y d Hg) as (d' & al' & x & E & D & G & Y'). rewrite E. cbn zeta. rewrite (dle_instance _ _ _ D).
    replace (field 2 bs (o + 24) =? lv_instance v) with true by lia. unfold le_ty at 1. rewrite (dle_type _ _ _ D). 
    assert (Hkt : known_type (field 4 bs o) = true) by (apply known_type_spec; now rewrite C2). rewrite Hkt.
    replace (field 4 bs o =? lv_ty v) with true by lia.
    destruct (entry_file o x p data d' C3 D G) as (d2 & E2 & G2 & Hdb & Hdl). rewrite X1, E2.
    set (f := mkFile (mkRecord data (Some p)) (le_number x)) in *.
    destruct C4 as (before & oa & after & b & W & Hbef & Hty & Hin & Hres & H34 & Hro & Henc).
    change data with (f_data f) in W, Hbef, Hty, Hin, Hres, H34, Hro, Henc, Hdb, Hdl.
    pose proof (field2_bound (f_data f) 20 Hdb) as H20.
    destruct (walk_fits f _ _ _ _ _ W ltac:(lia)) as (Ho0 & Hofit).
    assert (Ea : le_to_attribute x f = Ok (mkAttr f oa None)).
    { unfold le_to_attribute. cbn [f_number f]. rewrite Z.eqb_refl. cbn [negb]. unfold le_ty. rewrite (dle_type _ _ _ D), Hkt. cbn [rbind].
      rewrite (dle_instance _ _ _ D), C1, C2. eapply lookup_hit; eauto. lia. }
    rewrite Ea. destruct (lv_attr_runs_spec f oa Hdb Ho0 Hofit H34 Hres Hro) as (Er & Er2). rewrite Er.
    pose proof (valid_yields _ _ _ _ (pos_add (f_position f) (oa + field 2 (f_data f) (oa + 32))) C6 Henc) as Hy.
    destruct l as [|x0 l]; [congruence|]. cbn [map] in Hy. inversion Hy; subst.
    match goal with H : druns_next _ _ _ druns_start = _ |- _ => rewrite H end.
    do 3 eexists. split; [reflexivity|]. split; auto. split; [splits; auto|]. split; [reflexivity|]. split; [reflexivity|]. split.
    - cbn [lv_attr lv_set_attr cur_rest as_runs as_file as_offset at_offset]. do 2 eexists. split; [exact Er2|]. assumption.
    - cbn [lv_entries lv_set_attr lv_set_run lv_set_ss lv_set_entries ent_rest]. eauto.
  Qed.

  Lemma next_data_run_nil v : lv_fixed v -> cur_rest (lv_attr v) [] -> exists v', lv_next_data_run v = (v', Ok false) /\ lv_fixed v' /\
    cur_rest (lv_attr v') [] /\ lv_entries v' = lv_entries v /\ lv_ss v' = lv_ss v.
  Proof.
    intros Hx Hc. pose proof Hx as (X1 & X2 & X3 & X4 & X5). unfold lv_next_data_run, cur_rest in *. destruct (lv_attr v) as [a|] eqn:Ea; [|exists v; rewrite Ea; splits; auto].
    destruct (as_runs a) as [s|] eqn:Es; [|exists v; rewrite Ea, Es; splits; auto].
    destruct Hc as (enc & p & E & Hy). rewrite E, X1. inversion Hy; subst. match goal with H : druns_next _ _ _ _ = _ |- _ => rewrite H end.
    eexists. split; [reflexivity|]. splits; auto; try reflexivity; repeat split; auto.
  Qed.
  Lemma next_data_run_cons v r cur : lv_fixed v -> cur_rest (lv_attr v) (r :: cur) -> exists v', lv_next_data_run v = (v', Ok true) /\ lv_fixed v' /\
    cur_rest (lv_attr v') cur /\ lv_entries v' = lv_entries v /\ lv_ss v' = mkSS (Some r) (ss_pos (lv_ss v)) (ss_size (lv_ss v)).
  Proof.
    intros Hx Hc. pose proof Hx as (X1 & X2 & X3 & X4 & X5). unfold lv_next_data_run, cur_rest in *. destruct (lv_attr v) as [a|] eqn:Ea; [|discriminate].
    destruct (as_runs a) as [s|] eqn:Es; [|discriminate].
    destruct Hc as (enc & p & E & Hy). rewrite E, X1. inversion Hy; subst. match goal with H : druns_next _ _ _ _ = _ |- _ => rewrite H end.
    eexists. split; [reflexivity|]. splits; auto. cbn [lv_attr lv_set_attr as_runs as_file as_offset]. eauto.
  Qed.

  Lemma conn_nonempty offs parts : conn offs parts -> Forall (fun l => l <> []) parts.
  Proof. induction 1; constructor; auto. Qed.
  Lemma ent_nonempty x parts : ent_rest x parts -> Forall (fun l => l <> []) parts.
  Proof. destruct x; cbn; [intros (offs & _ & C); eapply conn_nonempty; eauto|intros ->; constructor]. Qed.

  Lemma lv_set_ok s x : so_ss lv_ops (so_set lv_ops s x) = x.
  Proof. reflexivity. Qed.
  Lemma lv_rest_set s l x : lv_rest s l -> lv_rest (so_set lv_ops s x) l.
  Proof. intros H; exact H. Qed.

  Lemma lv_adv_cons s r l d : lv_rest s (r :: l) -> gd d -> exists d' s',
    so_advance lv_ops s d = (d', (s', Ok true)) /\ lv_rest s' l /\
    so_ss lv_ops s' = mkSS (Some r) (ss_pos (so_ss lv_ops s)) (ss_size (so_ss lv_ops s)) /\ gd d' /\
    (length (d_reads d') <= length (d_reads d))%nat.
  Proof.
    intros (Hx & cur & parts & Hr & Hc & He) Hg. cbn [so_advance lv_ops so_ss].
    pose proof (lv_advance_evolves s d) as Hev. unfold lv_advance in *. destruct cur as [|r1 cur].
    - destruct (next_data_run_nil s Hx Hc) as (v1 & E1 & X1 & C1 & N1 & S1). rewrite E1 in *.
      destruct parts as [|l1 parts]; [discriminate|]. pose proof (ent_nonempty _ _ He) as Hne. apply Forall_inv in Hne.
      rewrite <- N1 in He. destruct (next_attribute_cons v1 l1 parts d X1 He Hg) as (d2 & v2 & r2 & E2 & G2 & X2 & Hh & S2 & C2 & N2). rewrite E2 in *.
      cbn [fst] in Hev. apply evolves_length in Hev.
      destruct l1 as [|x l1]; [congruence|]. cbn [map hd_error concat app] in *. injection Hh as <-. injection Hr as -> ->.
      exists d2, v2. split; auto. split; [|rewrite S2, S1; auto]. split; auto. exists (map (run_of cs) l1), parts. cbn [tl] in C2. rewrite map_app. auto.
    - destruct (next_data_run_cons s r1 cur Hx Hc) as (v1 & E1 & X1 & C1 & N1 & S1). rewrite E1 in *. injection Hr as <- ->.
      exists d, v1. split; auto. split; [|auto]. split; auto. exists cur, parts. rewrite N1. auto.
  Qed.

  Lemma lv_adv_nil s d : lv_rest s [] -> gd d -> exists d' s',
    so_advance lv_ops s d = (d', (s', Ok false)) /\ lv_rest s' [] /\ so_ss lv_ops s' = so_ss lv_ops s /\ gd d' /\
    (length (d_reads d') <= length (d_reads d))%nat.
  Proof.
    intros (Hx & cur & parts & Hr & Hc & He) Hg. cbn [so_advance lv_ops so_ss].
    symmetry in Hr. apply app_eq_nil in Hr as (-> & Hr).
    assert (parts = []) as ->.
    { destruct parts as [|l parts]; auto. pose proof (ent_nonempty _ _ He) as Hne. apply Forall_inv in Hne. destruct l; [congruence|discriminate]. }
    pose proof (lv_advance_evolves s d) as Hev. unfold lv_advance in *.
    destruct (next_data_run_nil s Hx Hc) as (v1 & E1 & X1 & C1 & N1 & S1). rewrite E1 in *. rewrite <- N1 in He.
    destruct (next_attribute_nil v1 d X1 He Hg) as (d2 & v2 & E2 & G2 & X2 & A2 & S2 & N2). rewrite E2 in *. cbn [fst] in Hev. apply evolves_length in Hev.
    exists d2, v2. split; auto. split; [|rewrite S2, S1; auto]. split; auto. exists [], []. rewrite A2. auto.
  Qed.

  Context (offs0 : list Z) (parts0 : list (list extent)) (Hy0 : lyields img bs l0 offs0 (ends_well e)) (Hc0 : conn offs0 parts0) (Hne0 : parts0 <> []).
  Notation runs := (map (run_of cs) (concat parts0)).

  Lemma lv_start v d : lv_fixed v -> lv_entries v = Some l0 -> gd d -> exists d' v',
    lv_next_attribute v d = (d', (v', Ok true)) /\ gd d' /\ lv_rest v' (tl runs) /\
    lv_ss v' = mkSS (hd_error runs) (ss_pos (lv_ss v)) (ss_size (lv_ss v)).
  Proof.
    intros Hx Hen Hg. destruct parts0 as [|l1 parts] eqn:Ep; [congruence|].
    assert (He : ent_rest (lv_entries v) (l1 :: parts)) by (rewrite Hen; exists offs0; auto).
    pose proof (ent_nonempty _ _ He) as Hne. apply Forall_inv in Hne. destruct l1 as [|x l1]; [congruence|].
    destruct (next_attribute_cons v _ parts d Hx He Hg) as (d2 & v2 & r2 & E2 & G2 & X2 & Hh & S2 & C2 & N2).
    exists d2, v2. split; auto. split; auto. cbn [map hd_error tl concat app] in *. rewrite S2, <- Hh. split; auto. split; auto. exists (map (run_of cs) l1), parts. now rewrite map_app.
  Qed.

  Lemma lv_rewind_ok s l d : lv_rest s l -> gd d -> ss_size (so_ss lv_ops s) = size -> exists d' s',
    so_rewind lv_ops s d = (d', (s', Ok tt)) /\ lv_rest s' (tl runs) /\
    so_ss lv_ops s' = mkSS (hd_error runs) 0 size /\ gd d' /\
    (length (d_reads d') <= length (d_reads d))%nat.
  Proof.
    intros (Hx & _) Hg _. pose proof Hx as (X1 & X2 & X3 & X4 & X5). cbn [so_rewind lv_ops so_ss].
    pose proof (lv_rewind_evolves s d) as Hev. unfold lv_rewind in *.
    destruct (lv_start (lv_set_ss (lv_set_entries s (Some (lv_initial s))) (ss_new (lv_size s))) d) as (d2 & v2 & E & G & R & S2); auto.
    { cbn. now rewrite X2. }
    rewrite E in *. cbn [fst] in Hev. apply evolves_length in Hev. exists d2, v2. splits; auto. rewrite S2. cbn [lv_ss lv_set_ss ss_new ss_pos ss_size]. now rewrite X5.
  Qed.

  Context (Hsize : 0 <= size <= U64_MAX).
  Lemma conn_valid offs parts : conn offs parts -> Forall (valid_extents cs img) parts.
  Proof. induction 1; constructor; auto. Qed.
  Lemma runs_all_ok : Forall (run_ok img) runs.
  Proof.
    pose proof (conn_valid _ _ Hc0) as H. revert H. generalize parts0 as pp. induction 1 as [|l parts H _ IH]; [constructor|].
    cbn [concat]. rewrite map_app. apply Forall_app. split; auto. now apply valid_runs.
  Qed.

  Definition lv_inv := inv lv_ops size runs lv_rest.
  Lemma lv_inv_len v : lv_inv v -> lv_len v = size.
  Proof. intros (rest & [_ _ (X & _) _ _ _]). apply X. Qed.

  (** Devices for which [fuel] is enough. *)
  Definition gdf (fuel : nat) (d : dev) : Prop := gd d /\ (length (d_reads d) + 2 * length runs + 2 <= fuel)%nat.

  Lemma lv_refines fuel : refines (lv_read fuel) (lv_seek fuel) lv_inv lv_stream_position (gdf fuel) (file_content cs img (concat parts0) size) size.
  Proof.
    rewrite <- content_of. pose proof (ve_img _ _ _ Hml) as Himg. split.
    - intros s (rest & [_ H _ _ _ _]). exact H.
    - intros s d n (rest & Hi) (Hg & Hf) Hn. unfold lv_read.
      destruct (read_refines lv_ops img size runs true lv_rest lv_set_ok lv_rest_set lv_adv_cons lv_adv_nil lv_rewind_ok Himg Hsize runs_all_ok fuel s rest n d Hi Hg Hn Hf)
        as (d' & v' & out & E & H1 & H2 & H3 & [[-> H4]|(? & _)]); [|discriminate]. rewrite E. exists d', v'. split; auto. split; auto. split; auto. split; auto. lia.
    - intros s d sf (rest & Hi) (Hg & Hf) Ha. unfold lv_seek. rewrite (lv_inv_len s) by (exists rest; auto).
      destruct (seek_refines lv_ops img size runs true lv_rest lv_set_ok lv_rest_set lv_adv_cons lv_adv_nil lv_rewind_ok Hsize runs_all_ok fuel s rest sf d Hi Hg Ha ltac:(lia))
        as (d' & v' & out & E & H1 & H3 & [(Hq & -> & Hp & rest' & Hi' & _)|(Hq & -> & ->)]); rewrite E.
      + exists d', v'. split; [split; auto; lia|]. split; [exists rest'; auto|]. auto.
      + exists d', s. split; [split; auto; lia|]. split; [exists rest; auto|]. auto.
  Qed.

  Lemma lv_new_ok d : gd d -> exists d' v, lv_new nt l0 inst ty size d = (d', Ok v) /\ gd d' /\ lv_inv v /\ lv_stream_position v = 0 /\ evolves d d'.
  Proof.
    intros Hg. unfold lv_new. pose proof (lv_next_attribute_evolves (mkLv nt l0 (Some l0) inst ty size None (ss_new size)) d) as Hev.
    destruct (lv_start (mkLv nt l0 (Some l0) inst ty size None (ss_new size)) d) as (d2 & v2 & E & G & R & S2); auto. { unfold lv_fixed. cbn. auto 10. }
    rewrite E in *. cbn [lv_ss ss_new ss_pos ss_size] in S2. exists d2, v2. split; auto. split; auto.
    pose proof (hd_facts _ _ runs_all_ok) as Hhd. split.
    - exists (tl runs). split; unfold pos; cbn [so_ss lv_ops]; rewrite ?S2; cbn [ss_size ss_pos ss_run]; auto.
      + unfold U64_MAX; lia.
      + destruct Hhd as [(E2 & _ & E3)|(r & t & E2 & _ & E3 & _)]; rewrite E3; [exists []|exists [r]]; auto.
      + destruct Hhd as [(E2 & -> & E3)|(r & t & E2 & -> & E3 & Hok)]; cbn; auto. destruct Hok as (? & ? & _). lia.
      + right. destruct Hhd as [(E2 & E4 & E3)|(r & t & E2 & E4 & E3 & Hok)]; rewrite E3; rewrite E4 in S2.
        * apply AtEnd; [cbn; now rewrite S2|]. rewrite E2; cbn; lia.
        * eapply (AtRun _ _ _ _ [] r t 0); eauto; [|destruct Hok; lia]. cbn. rewrite S2. cbn. now rewrite <- (mkRun_eta img).
    - unfold lv_stream_position. rewrite S2. split; auto.
  Qed.

  (** Data position after a seek that moved. *)
  Lemma lv_seek_position fuel v d sf d2 v2 q : lv_inv v -> gdf fuel d -> seek_arg_ok sf -> lv_seek fuel v sf d = (d2, (v2, Ok q)) ->
    q <> lv_stream_position v -> lv_stream_position v < size \/ q < lv_stream_position v -> lv_data_position v2 = disk_position cs (concat parts0) q.
  Proof.
    intros (rest & Hi) (Hg & Hf) Ha Hs Hne Hor. unfold lv_seek in Hs. rewrite (lv_inv_len v) in Hs by (exists rest; auto).
    destruct (seek_refines lv_ops img size runs true lv_rest lv_set_ok lv_rest_set lv_adv_cons lv_adv_nil lv_rewind_ok Hsize runs_all_ok fuel v rest sf d Hi Hg Ha ltac:(lia))
      as (d' & v' & out & E & H1 & H3 & [(Hq & -> & Hp & rest' & Hi' & Hat & Hin)|(Hq & -> & ->)]); rewrite E in Hs; [|discriminate].
    injection Hs as -> -> Hq2. rewrite Hq2 in *. pose proof (conn_valid _ _ Hc0) as Hva.
    assert (forall (P : extent -> Prop), (forall l, valid_extents cs img l -> Forall P l) -> Forall P (concat parts0)) as Hall.
    { intros P HP. revert Hva. generalize parts0. induction 1; cbn [concat]; [constructor|]. apply Forall_app. split; auto. }
    change (lv_data_position v2) with (ss_data_position (so_ss lv_ops v2)). eapply (aligned_position lv_ops cs img (concat parts0)).
    - apply Hml.
    - apply Hml.
    - apply Hall. intros l H. apply H.
    - apply Hall. intros l H. apply H.
    - apply Hall. intros l H. eapply distinct_nonzero, H.
    - apply Hat. destruct Hor as [Hlt|Hlt]; [left|right; auto]. destruct Hi as [_ K2 _ _ _ [K|K]]; [unfold pos in K; cbn in K; unfold lv_stream_position in *; lia|exact K].
    - apply Hin. auto.
    - lia.
  Qed.
End Value.

(** ** The property lemmas *)
Section Property.
  Context (img : list Z) (nt : ntfs) (mp : Z) (mdata : list Z) (ml : list extent) (bs : list Z) (ty inst size : Z) (e : list_end) (l0 : alist).
  Context (Hb : bytes_ok img) (Hmp : mft_position nt = Some mp) (Hfr : 32 <= file_record_size nt <= U16_MAX)
    (Hm : mft_at img mp (file_record_size nt) mdata ml) (Hml : valid_extents (cluster_size nt) img ml).
  Context (Hbs : bytes_ok bs) (Hk : type_known ty).
  Context (offs : list Z) (parts : list (list extent)) (Hy : lyields img bs l0 offs (ends_well e)) (Hc : connected img nt ml bs ty inst e offs parts) (Hne : parts <> []).
  Notation cs := (cluster_size nt).
  Notation bytes := (file_content cs img (concat parts) size).

  Lemma lv_stream a d : at_entries a = Some l0 -> attr_nr_data_size a = Ok size -> attr_instance a = Ok inst -> attr_ty a = Ok ty -> 0 <= size <= U64_MAX ->
    faultless d -> d_img d = img -> exists d1 v, attr_value nt a d = (d1, Ok v) /\ av_len v = size /\ av_stream_position v = 0 /\
    (length (d_reads d1) <= length (d_reads d))%nat /\
    forall fuel, (length (d_reads d1) + 2 * length (concat parts) + 2 <= fuel)%nat ->
      (forall ops, Forall op_ok ops -> reader_run (av_read fuel) (av_seek fuel) v d1 ops = cursor_run bytes size 0 ops) /\
      (forall ops d2 v2 sf d3 v3 q, Forall op_ok ops -> reader_exec (av_read fuel) (av_seek fuel) v d1 ops = (d2, v2) -> seek_arg_ok sf ->
         av_seek fuel v2 sf d2 = (d3, (v3, Ok q)) -> q <> av_stream_position v2 -> av_stream_position v2 < size \/ q < av_stream_position v2 ->
         av_data_position v3 = disk_position cs (concat parts) q).
  Proof.
    intros Ha1 Ha2 Ha3 Ha4 Hsize Hf Hi. unfold attr_value. rewrite Ha1, Ha2, Ha3, Ha4. unfold mbind, mlift, mret.
    assert (Hg : good img true d) by (split; auto).
    destruct (lv_new_ok img nt mp mdata ml bs ty inst size e l0 Hb Hmp Hfr Hm Hml Hbs Hk offs parts Hy Hc Hne d Hg) as (d1 & v & E & G & I & P0 & Ev).
    rewrite E. exists d1, (AVList v). split; auto. split; [exact (lv_inv_len img nt ml bs ty inst size e l0 parts v I)|]. split; auto.
    split; [now apply evolves_length|]. intros fuel Hfu.
    pose proof (lv_refines img nt mp mdata ml bs ty inst size e l0 Hb Hmp Hfr Hm Hml Hbs Hk offs parts Hy Hc Hne Hsize fuel) as R.
    assert (Gf : gdf img nt parts fuel d1) by (split; auto; rewrite map_length; lia).
    pose proof (refines_map AVList _ _ _ _ _ _ _ (av_read fuel) (av_seek fuel) av_stream_position R ltac:(reflexivity) ltac:(reflexivity) ltac:(reflexivity)) as R'.
    split.
    - intros ops Ho. change 0 with 0. rewrite <- P0. change (lv_stream_position v) with (av_stream_position (AVList v)).
      eapply refines_history; [exact R'| |exact Gf|exact Ho]. eexists; split; [reflexivity|exact I].
    - intros ops d2 v2 sf d3 v3 q Ho Hex Hsf Hs Hne2 Hor.
      destruct (refines_exec _ _ _ _ _ _ _ R' ops (AVList v) d1 d2 v2) as (I2 & G2); auto. { eexists; split; [reflexivity|exact I]. }
      destruct I2 as (v2' & -> & I2). cbn [av_seek] in Hs. destruct (lv_seek fuel v2' sf d2) as [d3' [v3' x]] eqn:Es. injection Hs as -> <- ->.
      eapply (lv_seek_position img nt mp mdata ml bs ty inst size e l0 Hb Hmp Hfr Hm Hml Hbs Hk offs parts Hy Hc Hne Hsize fuel v2' d2 sf d3 v3' q); eauto.
  Qed.

  Lemma lv_value f off : bytes_ok (f_data f) -> 0 <= off -> attr_fits (f_data f) off -> off + 56 <= zlen (f_data f) ->
    attr_type_at (f_data f) off = ty -> attr_instance_at (f_data f) off = inst -> field 8 (f_data f) (off + 48) = size ->
    value_reads_as nt (mkAttr f off (Some l0)) img (concat parts) size.
  Proof.
    intros Hfb Ho Hfit Hlen Ht Hi Hs d Hf Hd. apply lv_stream; auto.
    - unfold attr_nr_data_size. rewrite attr_rd_in by lia. now rewrite Hs.
    - unfold attr_instance. rewrite attr_rd_in by lia. unfold attr_instance_at in Hi. now rewrite Hi.
    - destruct (attr_ty_spec f off (Some l0) Ho Hfit) as [T _]. rewrite Ht in T. auto.
    - rewrite <- Hs. now apply field8_bound.
  Qed.
End Property.

Lemma connected_nonnil img nt ml bs ty inst e k offs parts : connected img nt ml bs ty inst e (skipn k offs) parts -> parts <> [] -> (k <= length offs)%nat.
Proof.
  intros Hc Hne. destruct (Nat.le_gt_cases k (length offs)) as [|H]; auto. rewrite skipn_all2 in Hc by lia. inversion Hc; subst. now destruct Hne.
Qed.

Lemma lv_resident_list img nt mp mdata ml bs p e offs k d0 f off parts :
  bytes_ok img -> mft_position nt = Some mp -> 32 <= file_record_size nt <= U16_MAX ->
  mft_at img mp (file_record_size nt) mdata ml -> valid_extents (cluster_size nt) img ml ->
  bytes_ok bs -> zlen bs <= U64_MAX -> position_sane p (zlen bs) -> list_walk bs 0 offs e -> faultless d0 -> d_img d0 = img ->
  bytes_ok (f_data f) -> 0 <= off -> attr_fits (f_data f) off -> off + 56 <= zlen (f_data f) -> type_known (attr_type_at (f_data f) off) ->
  connected img nt ml bs (attr_type_at (f_data f) off) (attr_instance_at (f_data f) off) e (skipn k offs) parts -> parts <> [] ->
  value_reads_as nt (mkAttr f off (Some (fst (iterate_state (with_dev alist_next) k (alist_of_sval (SVRes (res_new bs p)), d0))))) img
    (concat parts) (field 8 (f_data f) (off + 48)).
Proof.
  intros Hb Hmp Hfr Hm Hml Hbs Hl Hp W Hf Hd Hfb Ho Hfit Hlen Hk Hc Hne. pose proof (zlen_nonneg bs).
  assert (E : alist_of_sval (SVRes (res_new bs p)) = ALResident (zdrop 0 bs) (pos_add p 0)).
  { cbn [alist_of_sval res_new rv_data]. rewrite zdrop_0 by lia. f_equal. unfold res_data_position, res_new, res_len. cbn [rv_sp rv_data rv_position].
    replace (0 <=? zlen bs) with true by lia. reflexivity. }
  rewrite E. pose proof (lyields_resident img bs p 0 offs e Hbs Hl Hp W ltac:(lia)) as Y.
  destruct (lyields_after img bs k _ offs _ d0 Y (connected_nonnil _ _ _ _ _ _ _ _ _ _ Hc Hne) (conj Hd (fun _ => Hf))) as [Y2 _].
  eapply (lv_value img nt mp mdata ml bs); eauto.
Qed.

Lemma lv_nonresident_list img nt mp mdata ml l enc p lsize v e offs k d0 f off parts :
  bytes_ok img -> mft_position nt = Some mp -> 32 <= file_record_size nt <= U16_MAX ->
  mft_at img mp (file_record_size nt) mdata ml -> valid_extents (cluster_size nt) img ml ->
  valid_extents (cluster_size nt) img l -> encodes 0 l enc -> 0 <= lsize <= extents_size (cluster_size nt) l -> lsize + U16_MAX <= U64_MAX ->
  nr_new (cluster_size nt) enc p lsize = Ok v ->
  let bs := file_content (cluster_size nt) img l lsize in
  bytes_ok bs -> list_walk bs 0 offs e -> faultless d0 -> d_img d0 = img ->
  bytes_ok (f_data f) -> 0 <= off -> attr_fits (f_data f) off -> off + 56 <= zlen (f_data f) -> type_known (attr_type_at (f_data f) off) ->
  connected img nt ml bs (attr_type_at (f_data f) off) (attr_instance_at (f_data f) off) e (skipn k (with_cut offs e)) parts -> parts <> [] ->
  value_reads_as nt (mkAttr f off (Some (fst (iterate_state (with_dev alist_next) k (alist_of_sval (SVNr v), d0))))) img
    (concat parts) (field 8 (f_data f) (off + 48)).
Proof.
  intros Hb Hmp Hfr Hm Hml Hv He Hls Hmax Hn bs Hbs W Hf Hd Hfb Ho Hfit Hlen Hk Hc Hne.
  assert (Y : lyields img bs (ALNonResident v) (with_cut offs e) (ends_well e)).
  { apply (lyields_nonres (cluster_size nt) img l enc p lsize Hv He Hls Hmax Hbs 0 offs e W ltac:(lia)).
    destruct (nr_extents_new (cluster_size nt) img l enc p lsize Hv He) as (v0 & E0 & I0 & P0 & _). assert (v0 = v) by congruence. subst v0. split; auto. split; auto.
    intros _. eapply (nr_fresh_position (cluster_size nt) img l enc p lsize); eauto; lia. }
  change (alist_of_sval (SVNr v)) with (ALNonResident v).
  destruct (lyields_after img bs k _ _ _ d0 Y (connected_nonnil _ _ _ _ _ _ _ _ _ _ Hc Hne) (conj Hd (fun _ => Hf))) as [Y2 _].
  eapply (lv_value img nt mp mdata ml bs); eauto.
Qed.
