(** * Files with an attribute list, as parts of a volume. *)
From Coq Require Import Lia.
From Verif Require Import Base Dev Types Record DataRuns Stream NonResident Resident BootSector Attribute File Structured AttrList Upcase Index Shell
  Spec SpecMisc SpecValues SpecIndex SpecAttrList SpecListDir SpecVolume SpecInfo BaseProofs DevProofs ReaderProofs RecordProofs StreamProofs NonResidentProofs BootSectorProofs
  AttributeProofs FileProofs StructuredProofs ValueProofs AttrListProofs MiscProofs NodeProofs IndexProofs DirectoryProofs NameFindProofs UpcaseProofs EvolveProofs
  AttrListValueProofs FlatProofs FlatSearchProofs FaultProofs FuelProofs GoodProofs ListDirProofs.

(** ** Of the parameters of the volume, only the sizes matter. *)
Section Ext.
  Context (img : list Z) (nt nt' : ntfs) (Hc : cluster_size nt' = cluster_size nt) (Hr : file_record_size nt' = file_record_size nt).
  Lemma record_stored_ext ml n p data : record_stored img nt ml n p data -> record_stored img nt' ml n p data.
  Proof. intros [H1 H2 H3 H4 H5]. constructor; rewrite ?Hc, ?Hr; auto. Qed.
  Lemma connected_ext ml bs ty inst e offs parts : connected img nt ml bs ty inst e offs parts -> connected img nt' ml bs ty inst e offs parts.
  Proof.
    induction 1; [now constructor|now constructor|]. eapply con_part; eauto using record_stored_ext. now rewrite Hc.
  Qed.
  Lemma listed_ext ml bs self cur ents vs : listed img nt ml bs self cur ents vs -> listed img nt' ml bs self cur ents vs.
  Proof.
    induction 1; [apply ls_end|apply ls_own|apply ls_part|eapply ls_resident|eapply ls_nonresident|apply ls_unknown|eapply ls_absent|eapply ls_missing];
      rewrite ?Hc, ?Hr; eauto using record_stored_ext.
  Qed.
  Lemma file_with_list_ext ml f before lo after clean bs offs e vs mp mdata : mft_position nt' = Some mp -> mft_at img mp (file_record_size nt') mdata ml ->
    file_with_list img nt ml f before lo after clean bs offs e vs -> file_with_list img nt' ml f before lo after clean bs offs e vs.
  Proof.
    intros Hmp Hma []. constructor; rewrite ?Hc, ?Hr in *; auto; [|now apply listed_ext]. exists mp, mdata. auto.
  Qed.
  Lemma listed_directory_ext ml f bs e views root alloc : listed_directory img nt ml f bs e views root alloc -> listed_directory img nt' ml f bs e views root alloc.
  Proof.
    intros []. constructor; auto. destruct (root_is_large root); auto. destruct ld_alloc as (w & Hw & H). exists w. split; auto. destruct w as [| |n p data a from|]; auto.
    - rewrite Hc. exact H.
    - destruct H as (parts & H1 & H2 & H3 & H4). exists parts. rewrite Hc. auto using connected_ext.
  Qed.
  Lemma view_content_ext ml base bs e w content : view_content img nt ml base bs e w content -> view_content img nt' ml base bs e w content.
  Proof.
    destruct w as [| |n p data a from|]; cbn [view_content]; rewrite ?Hc; auto. intros (parts & H1 & H2 & H3 & H4 & H5). exists parts. rewrite ?Hc. auto using connected_ext.
  Qed.
End Ext.
Lemma of_type_listed_impl {A} base ty (R R' : view -> A -> Prop) views l : (forall w x, R w x -> R' w x) -> of_type_listed base ty R views l -> of_type_listed base ty R' views l.
Proof. intros H. induction 1; [apply otl_nil|apply otl_other|apply otl_one]; auto. Qed.

(** ** The attributes of one type *)
Lemma at_view_and base (P Q : list Z -> Z -> Prop) w : at_view base P w -> at_view base Q w -> at_view base (fun data o => P data o /\ Q data o) w.
Proof. unfold at_view. destruct (view_at base w) as [[data o]|]; auto. Qed.
Lemma at_view_not base (P Q : list Z -> Z -> Prop) w : (forall data o, P data o -> Q data o -> False) -> at_view base P w -> at_view base Q w -> False.
Proof. unfold at_view. destruct (view_at base w) as [[data o]|]; eauto. Qed.
Lemma at_view_impl base (P Q : list Z -> Z -> Prop) w : (forall data o, P data o -> Q data o) -> at_view base P w -> at_view base Q w.
Proof. unfold at_view. destruct (view_at base w) as [[data o]|]; auto. Qed.
Section Typed.
  Context {A : Type} (base : list Z) (ty : Z) (R : view -> A -> Prop).
  Lemma of_type_listed_split l1 w l2 l : of_type_listed base ty R (l1 ++ w :: l2) l -> at_view base (fun data o => attr_type_at data o = ty) w ->
    exists k1 x k2, l = k1 ++ x :: k2 /\ of_type_listed base ty R l1 k1 /\ R w x.
  Proof.
    revert l. induction l1 as [|a l1 IH]; intros l H Ht; inversion H; subst.
    - exfalso. eapply at_view_not; [|exact H2|exact Ht]. cbn. tauto.
    - exists [], x, l0. split; auto. split; [constructor|auto].
    - destruct (IH _ H4) as (k1 & x & k2 & -> & H5 & H6); auto. exists k1, x, k2. split; auto. split; auto. now apply otl_other.
    - destruct (IH _ H5) as (k1 & y & k2 & -> & H6 & H7); auto. exists (x :: k1), y, k2. split; auto. split; auto. now apply otl_one.
  Qed.
  Lemma of_type_listed_Forall (P : view -> Prop) (Q : A -> Prop) views l : of_type_listed base ty R views l -> Forall P views ->
    (forall w x, at_view base (fun data o => attr_type_at data o = ty) w -> R w x -> P w -> Q x) -> Forall Q l.
  Proof. induction 1; intros Hf HQ; inversion Hf; subst; auto. constructor; eauto. Qed.
  Lemma of_type_listed_in views l w : of_type_listed base ty R views l -> In w views -> at_view base (fun data o => attr_type_at data o = ty) w -> exists x, In x l /\ R w x.
  Proof.
    induction 1; intros Hi Ht; [easy|..].
    - destruct Hi as [->|Hi]; [exfalso; eapply at_view_not; [|exact H|exact Ht]; cbn; tauto|auto].
    - destruct Hi as [->|Hi]; [exists x; split; [now left|auto]|]. destruct IHof_type_listed as (y & Hy & Hr); auto. exists y. split; [now right|auto].
  Qed.
End Typed.

(** ** Names *)
Definition link_wanted (ns parent : option Z) (x : link) : Prop := wanted ns (l_namespace x) /\ wanted parent (l_parent x).
Lemma listed_name img nt ml f before lo after bs offs e vs links ns parent d : file_with_list img nt ml f before lo after true bs offs e vs ->
  let views := map VBase before ++ vs ++ map VBase after in
  Forall (at_view (f_data f) (fun data o => type_known (attr_type_at data o))) views ->
  of_type_listed (f_data f) 48 (fun w x => at_view (f_data f) (fun data o => says_link data o x) w) views links -> good img true d ->
  exists N d' r, good img true d' /\ (forall fuel, (N <= fuel)%nat -> file_name_of fuel nt f ns parent d = (d', Ok r)) /\
    match r with
    | Some fn => exists x, first_of (link_wanted ns parent) links x /\ units (fn_name fn) = l_name x
    | None => none_of (link_wanted ns parent) links
    end.
Proof.
  intros Hff views Hk Hlinks Hg. set (N := S (length offs + length views + 3)). pose proof Hg as (Hi & Hf). specialize (Hf eq_refl).
  destruct (file_yields _ _ _ _ _ _ _ _ _ _ _ _ Hff) as (_ & _ & Hok). fold views in Hok.
  assert (Hres : Forall (fun v => v = VBroken \/ at_view (f_data f) (fun data o => attr_type_at data o = 48 -> attr_resident_at data o /\ o + 22 <= zlen data) v) views).
  { apply Forall_forall. intros w Hw. rewrite Forall_forall in Hk. specialize (Hk w Hw). right. unfold at_view in *. destruct (view_at (f_data f) w) as [[data o]|] eqn:Ev; [|contradiction].
    intros Ht. destruct (of_type_listed_in _ _ _ _ _ w Hlinks Hw) as (y & _ & Hy); [unfold at_view; now rewrite Ev|]. unfold at_view in Hy. rewrite Ev in Hy. destruct Hy as (H1 & H2 & _). auto. }
  pose proof (name_flat img nt ml f before lo after true bs offs e vs ns parent N d Hff Hres Hf Hi ltac:(unfold N, views; lia)) as Hr. fold views in Hr.
  assert (Hnot : forall a k, of_type_listed (f_data f) 48 (fun w x => at_view (f_data f) (fun data o => says_link data o x) w) a k ->
    Forall (at_view (f_data f) (fun data o => not_name data ns parent o)) a -> none_of (link_wanted ns parent) k).
  { intros a k Ho Hfa. eapply (of_type_listed_Forall _ _ _ _ _ _ _ Ho Hfa). intros w y. unfold at_view. destruct (view_at (f_data f) w) as [[data o]|]; [|contradiction].
    intros Ht (_ & _ & bs0 & Hv & S1 & S2 & S3 & S4 & S5 & S6) (_ & [K|(bs' & fn & Hv' & Hdec & K)]); [tauto|].
    assert (bs' = bs0) by (destruct Hv as (_ & ->), Hv' as (_ & ->); reflexivity). subst bs'. unfold link_wanted. now rewrite S4, S5. }
  assert (Hwell : forall w, In w views -> view_at (f_data f) w = None \/ at_view (f_data f) (fun data o => malformed_name data o) w -> False).
  { intros w Hw. rewrite Forall_forall in Hk. specialize (Hk w Hw). unfold at_view in *. destruct (view_at (f_data f) w) as [[data o]|] eqn:Ev; [|contradiction].
    intros [Hm|[Hm|(Hm & Hn)]]; [discriminate|now apply Hm|]. destruct (of_type_listed_in _ _ _ _ _ w Hlinks Hw) as (y & _ & Hy); [unfold at_view; now rewrite Ev|].
    unfold at_view in Hy. rewrite Ev in Hy. destruct Hy as (_ & _ & bs0 & Hv & S1 & S2 & S3 & _).
    destruct (file_name_exists bs0 S1 S2 S3) as (fn & D). apply (Hn bs0 fn). auto. }
  pose proof (file_name_of_good img N nt f ns parent d Hg) as Hgood. pose proof (fun fuel H => file_name_of_fuel N fuel H nt f ns parent d) as Hfuel.
  destruct (file_name_of N nt f ns parent d) as [d' r]. cbn [fst snd] in *. exists N, d'. destruct r as [r|y| |]; cbn [search_result] in Hr; try contradiction.
  - exists r. split; auto. split; [intros fuel Hfu; apply Hfuel; auto; discriminate|]. destruct r as [fn|].
    + destruct Hr as (v1 & w & v2 & E & Hf1 & Hw). assert (Ht : at_view (f_data f) (fun data o => attr_type_at data o = 48) w) by (eapply at_view_impl; [|exact Hw]; cbn; intros ? ? (H & _); exact H).
      rewrite E in Hlinks. destruct (of_type_listed_split _ _ _ _ _ _ _ Hlinks Ht) as (k1 & y & k2 & -> & Ho1 & Hy).
      exists y. unfold at_view in Hw, Hy. destruct (view_at (f_data f) w) as [[data o]|] eqn:Ev; [|contradiction].
      destruct Hw as (_ & bs0 & Hv & Hdec & Hw1 & Hw2), Hy as (_ & _ & bs' & Hv' & S1 & S2 & S3 & S4 & S5 & S6).
      assert (bs' = bs0) by (destruct Hv as (_ & ->), Hv' as (_ & ->); reflexivity). subst bs'. split.
      * exists k1, k2. split; auto. split; [unfold link_wanted; now rewrite S4, S5|]. exact (Hnot _ _ Ho1 Hf1).
      * rewrite (dfn_name _ _ Hdec). apply units_utf16; auto. eapply utf16_even; eauto.
    + destruct Hr as (_ & Hr). exact (Hnot _ _ Hlinks Hr).
  - exfalso. destruct Hr as [(Hr & _)|(v1 & w & v2 & E & _ & Hm)]; [discriminate|]. apply (Hwell w); auto. rewrite E. apply in_elt.
Qed.

(** ** Streams *)
Lemma get_loop_run fuel content size : forall k v p acc d,
  (forall m, reader_run (av_read fuel) (av_seek fuel) v d (repeat (ORead 4096) m) = cursor_run content size p (repeat (ORead 4096) m)) ->
  0 <= p <= zlen content -> zlen content - p < Z.of_nat k -> snd (get_loop fuel k v acc d) = (acc ++ zdrop p content, Ok tt).
Proof.
  induction k as [|k IH]; intros v p acc d H Hp Hk; [lia|]. cbn [get_loop]. pose proof (H 1%nat) as H1. cbn [repeat reader_run reader_step cursor_run cursor_step] in H1.
  assert (H2 := fun m => H (S m)). cbn [repeat reader_run reader_step cursor_run cursor_step] in H2. clear H.
  destruct (av_read fuel v 4096 d) as [d1 [v1 r]] eqn:E. injection H1 as ->. set (b := ztake 4096 (zdrop p content)) in *.
  assert (Hb : zlen b = Z.min 4096 (zlen content - p)) by (unfold b; rewrite zlen_ztake, zlen_zdrop; lia).
  destruct (zlen b =? 0) eqn:Ez.
  - rewrite (zdrop_all p) by lia. cbn [snd]. now rewrite app_nil_r.
  - rewrite (IH v1 (p + zlen b)); [|intros m; specialize (H2 m); now injection H2|lia|lia]. rewrite <- app_assoc. do 2 f_equal.
    rewrite Z.add_comm, <- zdrop_zdrop by lia. unfold b. set (rest := zdrop p content). assert (Hr : zlen rest = zlen content - p) by (unfold rest; rewrite zlen_zdrop; lia).
    fold rest in b. rewrite <- Hr in *. destruct (Z_le_gt_dec 4096 (zlen rest)).
    + replace (zlen (ztake 4096 rest)) with 4096 by (rewrite zlen_ztake; lia). apply ztake_zdrop.
    + rewrite (ztake_all 4096 rest), zdrop_all by lia. apply app_nil_r.
Qed.
Definition reads_to_end (img : list Z) (nt : ntfs) (a : attribute) (content : list Z) : Prop := forall d, good img true d ->
  exists d2 val, attr_value nt a d = (d2, Ok val) /\ good img true d2 /\
  exists N d3, good img true d3 /\ forall fuel, (N <= fuel)%nat -> get_loop fuel fuel val [] d2 = (d3, (content, Ok tt)).
Lemma reads_ok m : Forall op_ok (repeat (ORead 4096) m).
Proof. apply Forall_forall. intros x Hx. apply repeat_spec in Hx. subst. cbn. unfold U64_MAX. lia. Qed.
Lemma to_end img content size val d : good img true d ->
  (exists K, forall fuel, (K <= fuel)%nat -> forall ops, Forall op_ok ops -> reader_run (av_read fuel) (av_seek fuel) val d ops = cursor_run content size 0 ops) ->
  exists N d3, good img true d3 /\ forall fuel, (N <= fuel)%nat -> get_loop fuel fuel val [] d = (d3, (content, Ok tt)).
Proof.
  intros Hg (K & H). set (N := (K + S (length content))%nat).
  assert (E : snd (get_loop N N val [] d) = (content, Ok tt)).
  { rewrite (get_loop_run N content size N val 0 [] d); [now rewrite zdrop_0 by lia| | |].
    - intros m. apply H; [unfold N; lia|apply reads_ok].
    - unfold zlen. lia.
    - unfold zlen, N. lia. }
  exists N, (fst (get_loop N N val [] d)). split; [now apply get_loop_good|]. intros fuel Hf. rewrite (get_loop_more N fuel Hf val d _ _ E). destruct (get_loop N N val [] d) as [d3 y]. cbn [fst snd] in *. now subst y.
Qed.
Lemma simple_to_end img nt F o content : bytes_ok (f_data F) -> 0 <= o -> attr_fits (f_data F) o -> attr_content (cluster_size nt) img (f_data F) o content ->
  reads_to_end img nt (mkAttr F o None) content.
Proof.
  intros Hb Ho Hf Hc d Hg. destruct (attr_content_value _ _ F o None _ Hb Ho Hf Hc) as (s & Es & Hv). destruct (value_of_reads _ _ s content Hv) as (_ & _ & Hp & I & HI & R).
  exists d, (AVSimple s). split; [|split; auto].
  - unfold attr_value. cbn [at_entries]. unfold mbind, mlift, mret. now rewrite Es.
  - eapply to_end with (size := zlen content); eauto. exists 0%nat. intros fuel _ ops Hops.
    rewrite <- Hp. apply (refines_history (av_read fuel) (av_seek fuel) (fun x => exists u, x = AVSimple u /\ I u) av_stream_position (good img true) content (zlen content)); eauto.
    apply (refines_map AVSimple _ _ _ _ _ _ _ (av_read fuel) (av_seek fuel) av_stream_position R); reflexivity.
Qed.
Lemma listed_stream img nt ml f before lo after bs offs e vs streams t stream d : file_with_list img nt ml f before lo after true bs offs e vs ->
  let views := map VBase before ++ vs ++ map VBase after in
  Forall (at_view (f_data f) (fun data o => type_known (attr_type_at data o))) views ->
  of_type_listed (f_data f) 128 (fun w x => at_view (f_data f) (fun data o => exists bs, attr_name_at data o bs /\ utf16 bs (fst x)) w /\
                                   view_content img nt ml (f_data f) bs e w (snd x)) views streams ->
  stream = [] \/ upcase_table nt = Some t /\ zlen t = 65536 /\ Forall unit_ok stream -> good img true d ->
  exists N d1, good img true d1 /\
  ((none_of (fun x => same_name t stream (fst x)) streams /\ forall fuel, (N <= fuel)%nat -> file_data fuel nt f stream d = (d1, Ok None)) \/
   (exists x i a, first_of (fun x => same_name t stream (fst x)) streams x /\ (forall fuel, (N <= fuel)%nat -> file_data fuel nt f stream d = (d1, Ok (Some i))) /\
      item_to_attribute i = Ok a /\ reads_to_end img nt a (snd x))).
Proof.
  intros Hff views Hk Hst Hup Hg. set (N := S (length offs + length views + 3)). pose proof Hg as (Hi & Hf). specialize (Hf eq_refl).
  destruct (file_yields _ _ _ _ _ _ _ _ _ _ _ _ Hff) as (_ & _ & Hok). fold views in Hok.
  pose proof (data_flat img nt ml f before lo after true bs offs e vs t stream N d Hff Hup Hf Hi ltac:(unfold N, views; lia)) as Hr. fold views in Hr.
  set (R := fun w (x : list Z * list Z) => at_view (f_data f) (fun data o => exists bs, attr_name_at data o bs /\ utf16 bs (fst x)) w /\ view_content img nt ml (f_data f) bs e w (snd x)) in *.
  assert (Hnot : forall a k, of_type_listed (f_data f) 128 R a k -> Forall (at_view (f_data f) (fun data o => not_stream data t stream o)) a -> none_of (fun x => same_name t stream (fst x)) k).
  { intros a k Ho Hfa. eapply (of_type_listed_Forall _ _ _ _ _ _ _ Ho Hfa). intros w y. unfold R, at_view. destruct (view_at (f_data f) w) as [[data o]|]; [|contradiction].
    intros Ht ((b & Hn & Hu16) & _) (_ & [K|(bs' & us & Hn' & Hu' & K)]); [tauto|].
    pose proof (name_at_fun _ _ _ _ Hn Hn'); subst bs'. pose proof (utf16_fun _ _ _ Hu16 Hu'); subst us. auto. }
  assert (Hwell : forall w, In w views -> view_at (f_data f) w = None \/ at_view (f_data f) (fun data o => malformed_stream data o) w -> False).
  { intros w Hw. rewrite Forall_forall in Hk. specialize (Hk w Hw). unfold at_view in *. destruct (view_at (f_data f) w) as [[data o]|] eqn:Ev; [|contradiction].
    intros [Hm|[Hm|(Hm & Hn)]]; [discriminate|now apply Hm|]. destruct (of_type_listed_in _ _ _ _ _ w Hst Hw) as (y & _ & Hy & _); [unfold at_view; now rewrite Ev|].
    unfold at_view in Hy. rewrite Ev in Hy. destruct Hy as (b & Hn' & _). now apply (Hn b). }
  pose proof (file_data_good img N nt f stream d Hg) as Hgood. pose proof (fun fuel H => file_data_fuel N fuel H nt f stream d) as Hfuel.
  destruct (file_data N nt f stream d) as [d1 r]. cbn [fst snd] in *. exists N, d1. split; auto. destruct r as [r|y| |]; cbn [search_result] in Hr; try contradiction.
  - destruct r as [i|].
    + right. destruct Hr as (v1 & w & v2 & E & Hf1 & (Hsh & Hw)).
      assert (Ht : at_view (f_data f) (fun data o => attr_type_at data o = 128) w) by (eapply at_view_impl; [|exact Hw]; cbn; intros ? ? (H & _); exact H).
      rewrite E in Hst. destruct (of_type_listed_split _ _ _ _ _ _ _ Hst Ht) as (k1 & y & k2 & -> & Ho1 & (Hy & Hc)).
      assert (Hsame : same_name t stream (fst y)).
      { unfold at_view in Hw, Hy. destruct (view_at (f_data f) w) as [[data o]|]; [|contradiction]. destruct Hw as (_ & bs' & us & Hn' & Hu' & Hsame), Hy as (b & Hn & Hu16).
        pose proof (name_at_fun _ _ _ _ Hn Hn'); subst bs'. pose proof (utf16_fun _ _ _ Hu16 Hu'); subst us. auto. }
      rewrite E in Hok. apply Forall_app in Hok as (_ & Hok). apply Forall_inv in Hok. destruct Hok as (Hok & _).
      assert (Ha : exists a, item_to_attribute i = Ok a /\ reads_to_end img nt a (snd y)).
      { destruct w as [o|n p data a|n p data a from|]; cbn [view_at item_shows view_content] in *; [| | |contradiction]; destruct Hok as (Hb & Ho & Hfit).
        - injection Hsh as ->. exists (mkAttr f o None). split; [unfold item_to_attribute; exact (proj1 (attr_new_spec f o None Ho) Hfit)|now apply simple_to_end].
        - injection Hsh as ->. exists (mkAttr (mkFile (mkRecord data (Some p)) n) a None).
          split; [unfold item_to_attribute; exact (proj1 (attr_new_spec (mkFile (mkRecord data (Some p)) n) a None Ho) Hfit)|now apply simple_to_end].
        - destruct Hsh as (l & Hsh & Hrd). injection Hsh as ->. destruct Hc as (parts & H56 & _ & Hcon & Hsz & ->).
          exists (mkAttr (mkFile (mkRecord data (Some p)) n) a (Some l)). split; [unfold item_to_attribute; exact (proj1 (attr_new_spec (mkFile (mkRecord data (Some p)) n) a (Some l) Ho) Hfit)|].
          intros d0 G0. destruct (Hrd parts Hcon H56 d0 (proj2 G0 eq_refl) (proj1 G0)) as (d2 & val & Ev & _ & _ & _ & Hread).
          pose proof (attr_value_good img nt (mkAttr (mkFile (mkRecord data (Some p)) n) a (Some l)) d0 G0) as G2. rewrite Ev in G2. cbn [fst] in G2.
          exists d2, val. split; auto. split; auto. eapply to_end; eauto. eexists. intros fuel Hfu ops Hops. apply (proj1 (Hread fuel Hfu) ops Hops). }
      destruct Ha as (a & Ha1 & Ha2). exists y, i, a. split; [|split; auto].
      * exists k1, k2. split; auto. split; auto. exact (Hnot _ _ Ho1 Hf1).
      * intros fuel Hfu. apply Hfuel; auto. discriminate.
    + left. destruct Hr as (_ & Hr). split; [exact (Hnot _ _ Hst Hr)|]. intros fuel Hfu. apply Hfuel; auto. discriminate.
  - exfalso. destruct Hr as [(Hr & _)|(v1 & w & v2 & E & _ & Hm)]; [discriminate|]. apply (Hwell w); auto. rewrite E. apply in_elt.
Qed.

(** ** The printed lines of a directory *)
Lemma has_list_here img v n q data nt0 before lo after bs offs e vs nt mp mdata : has_list img v n q data nt0 before lo after bs offs e vs ->
  cluster_size nt = v_cluster v -> file_record_size nt = v_record v -> mft_position nt = Some mp -> mft_at img mp (v_record v) mdata (v_mft v) ->
  has_list img v n q data nt before lo after bs offs e vs.
Proof.
  intros [H1 H2 H3] Hc Hr Hmp Hma. constructor; auto. eapply file_with_list_ext with (nt := nt0); [congruence|congruence|exact Hmp|rewrite Hr; exact Hma|exact H3].
Qed.
