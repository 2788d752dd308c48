(** * Values in several records on a volume that changes. *)
From Coq Require Import Lia.
From Verif Require Import Base Dev Types Record DataRuns Stream NonResident Resident BootSector Attribute File Structured AttrList
  Spec SpecIndex SpecAttrList SpecLive BaseProofs DevProofs StreamProofs DataRunsProofs ReaderProofs ResidentProofs NonResidentProofs
  AttributeProofs FileProofs StructuredProofs ValueProofs MiscProofs NodeProofs AttrListIterProofs EvolveProofs AttrListValueProofs LiveProofs.

(** [lyields] for a set of devices. *)
Fixpoint lyg (g : dev -> Prop) (bs : list Z) (l : alist) (offs : list Z) (b : bool) : Prop :=
  match offs with
  | [] => b = true -> forall d, g d -> exists d', alist_next l d = (d', (l, None))
  | o :: offs' => forall d, g d -> exists d' l' e, alist_next l d = (d', (l', Some (Ok e))) /\ decodes_list_entry bs o e /\ lyg g bs l' offs' b
  end.

Lemma lyg_resident g bs p o offs e : bytes_ok bs -> zlen bs <= U64_MAX -> position_sane p (zlen bs) ->
  list_walk bs o offs e -> 0 <= o <= zlen bs -> lyg g bs (ALResident (zdrop o bs) (pos_add p o)) offs (ends_well e).
Proof.
  intros Hb Hl Hp. induction 1 as [o He|o H1 H2|o H1 H2 H3|o offs e H1 H2 H3 W IH]; intros Ho.
  - intros _ d Hg. exists d. rewrite zdrop_all by lia. auto.
  - intros [=].
  - intros _ d Hg. destruct (proj1 (alist_next_resident bs p Hb Hl Hp o d ltac:(lia)) H2) as (e & _ & _ & _ & E). rewrite (E H3). eauto.
  - pose proof (field2_bound bs (o + 4) Hb) as B2. fold (lentry_len bs o) in B2.
    intros d Hg. destruct (proj1 (alist_next_resident bs p Hb Hl Hp o d ltac:(lia)) H2) as (v & D & Dp & E & _).
    rewrite (E H3). do 3 eexists. split; [reflexivity|]. split; auto. apply IH. lia.
Qed.

Lemma lyg_after (g : dev -> Prop) (Hev : forall d d', g d -> evolves d d' -> g d') bs : forall k l offs b d, lyg g bs l offs b -> (k <= length offs)%nat -> g d ->
  lyg g bs (fst (iterate_state (with_dev alist_next) k (l, d))) (skipn k offs) b.
Proof.
  induction k as [|k IH]; intros l offs b d Y Hk Hg; [auto|]. destruct offs as [|o offs]; [cbn in Hk; lia|]. cbn [iterate_state skipn].
  destruct (Y d Hg) as (d' & l' & e & E & _ & Y'). unfold with_dev at 2. cbn [fst snd]. pose proof (alist_next_evolves l d) as Ev. rewrite E in *. cbn [fst] in *. apply IH; auto.
  - cbn in Hk. lia.
  - eapply Hev; eauto.
Qed.

Section Value.
  Context (K : list Z -> Prop) (nt : ntfs) (mp : Z) (bs : list Z) (ty inst size : Z) (e : list_end) (l0 : alist).
  Context (Hmp : mft_position nt = Some mp) (Hfr : 32 <= file_record_size nt <= U16_MAX) (Hbs : bytes_ok bs) (Hk : type_known ty).
  Notation cs := (cluster_size nt).
  Definition gk (d : dev) : Prop := faultless d /\ K (d_img d).
  Notation conn := (fun offs parts => forall img, K img -> lists_parts nt mp bs ty inst e offs parts img).

  Lemma gk_evolves d d' : gk d -> evolves d d' -> gk d'.
  Proof. intros (H1 & H2) Ev. split; [eapply evolves_faultless; eauto|]. destruct Ev as [-> _]. exact H2. Qed.
  Lemma gk_good img d : K img -> good img true d -> gk d.
  Proof. intros H (<- & Hf). split; auto. Qed.

  Definition ent_g (x : option alist) (parts : list (list extent)) : Prop :=
    match x with None => parts = [] | Some l => exists offs, lyg gk bs l offs (ends_well e) /\ conn offs parts end.
  Definition fixed (v : lval) : Prop := lv_ntfs v = nt /\ lv_initial v = l0 /\ lv_instance v = inst /\ lv_ty v = ty /\ lv_size v = size.
  Definition rest_g (v : lval) (rest : list run) : Prop := fixed v /\
    exists cur parts, rest = cur ++ map (run_of cs) (concat parts) /\ cur_rest nt (lv_attr v) cur /\ ent_g (lv_entries v) parts.

  Lemma na_nil v d : fixed v -> ent_g (lv_entries v) [] -> gk d -> exists d' v',
    lv_next_attribute v d = (d', (v', Ok false)) /\ fixed v' /\ lv_attr v' = lv_attr v /\ lv_ss v' = lv_ss v /\ ent_g (lv_entries v') [].
  Proof.
    intros Hx He Hg. pose proof Hx as (X1 & X2 & X3 & X4 & X5). unfold lv_next_attribute, lv_next_entry. destruct (lv_entries v) as [l|] eqn:El.
    2: { exists d, v. rewrite El. splits; auto. }
    destruct He as (offs & Y & C). destruct (C _ (proj2 Hg)) as (_ & mdata & ml & _ & _ & C1). inversion C1 as [Hne|o offs' Hno|]; subst.
    - cbn [lyg] in Y. destruct (Y ltac:(now destruct e) d Hg) as (d' & E). rewrite E. do 2 eexists. split; [reflexivity|]. splits; auto.
      cbn [lv_entries lv_set_entries ent_g]. exists []. split; auto.
    - cbn [lyg] in Y. destruct (Y d Hg) as (d' & l' & x & E & D & _). rewrite E. cbn zeta. rewrite (dle_instance _ _ _ D), X3.
      destruct (field 2 bs (o + 24) =? inst) eqn:Ei.
      + destruct Hno as [Hno|(Hno1 & Hno2)]; [lia|]. unfold le_ty. rewrite (dle_type _ _ _ D). apply known_type_spec in Hno1. rewrite Hno1, X4.
        replace (field 4 bs o =? ty) with false by lia. do 2 eexists. split; [reflexivity|]. splits; auto. cbn. auto.
      + do 2 eexists. split; [reflexivity|]. splits; auto. cbn. auto.
  Qed.

  Lemma na_cons v l parts d : fixed v -> ent_g (lv_entries v) (l :: parts) -> gk d -> exists d' v' r,
    lv_next_attribute v d = (d', (v', Ok true)) /\ fixed v' /\ hd_error (map (run_of cs) l) = Some r /\
    lv_ss v' = mkSS (Some r) (ss_pos (lv_ss v)) (ss_size (lv_ss v)) /\
    cur_rest nt (lv_attr v') (tl (map (run_of cs) l)) /\ ent_g (lv_entries v') parts.
  Proof.
    intros Hx He Hg. pose proof Hx as (X1 & X2 & X3 & X4 & X5). unfold lv_next_attribute, lv_next_entry. destruct (lv_entries v) as [al|] eqn:El; [|discriminate He].
    destruct He as (offs & Y & C). destruct (C _ (proj2 Hg)) as (Hb & mdata & ml & Hm & Hml & C0).
    inversion C0 as [| |o offs' p data l' parts' C1 C2 C3 C4 C5 C6 C7]; subst.
    cbn [lyg] in Y. destruct (Y d Hg) as (d' & al' & x & E & D & Y'). pose proof (alist_next_evolves al d) as Ev. rewrite E in *. cbn zeta. cbn [fst] in Ev. rewrite (dle_instance _ _ _ D).
    replace (field 2 bs (o + 24) =? lv_instance v) with true by lia. unfold le_ty at 1. rewrite (dle_type _ _ _ D). 
    assert (Hkt : known_type (field 4 bs o) = true) by (apply known_type_spec; now rewrite C2). rewrite Hkt.
    replace (field 4 bs o =? lv_ty v) with true by lia.
    assert (G : good (d_img d) true d') by (eapply good_evolves; [split; [reflexivity|intros _; apply Hg]|exact Ev]).
    destruct (entry_file (d_img d) nt mp mdata ml bs Hb Hmp Hfr Hm Hml Hbs o x p data d' C3 D G) as (d2 & E2 & G2 & Hdb & Hdl). rewrite X1, E2.
    set (f := mkFile (mkRecord data (Some p)) (le_number x)) in *.
    destruct C4 as (before & oa & after & b & W & Hbef & Hty & Hin & Hres & H34 & Hro & Henc).
    change data with (f_data f) in W, Hbef, Hty, Hin, Hres, H34, Hro, Henc, Hdb, Hdl.
    pose proof (field2_bound (f_data f) 20 Hdb) as H20.
    destruct (walk_fits f _ _ _ _ _ W ltac:(lia)) as (Ho0 & Hofit).
    assert (Ea : le_to_attribute x f = Ok (mkAttr f oa None)).
    { unfold le_to_attribute. cbn [f_number f]. rewrite Z.eqb_refl. cbn [negb]. unfold le_ty. rewrite (dle_type _ _ _ D), Hkt. cbn [rbind].
      rewrite (dle_instance _ _ _ D), C1, C2. eapply lookup_hit; eauto. lia. }
    rewrite Ea. destruct (lv_attr_runs_spec f oa Hdb Ho0 Hofit H34 Hres Hro) as (Er & Er2). rewrite Er.
    pose proof (valid_yields _ _ _ _ (pos_add (f_position f) (oa + field 2 (f_data f) (oa + 32))) C6 Henc) as Hy.
    destruct l as [|x0 l]; [congruence|]. cbn [map] in Hy. inversion Hy; subst.
    match goal with H : druns_next _ _ _ druns_start = _ |- _ => rewrite H end.
    do 3 eexists. split; [reflexivity|]. split; [splits; auto|]. split; [reflexivity|]. split; [reflexivity|]. split.
    - cbn [lv_attr lv_set_attr cur_rest as_runs as_file as_offset at_offset]. do 2 eexists. split; [exact Er2|]. assumption.
    - cbn [lv_entries lv_set_attr lv_set_run lv_set_ss lv_set_entries ent_g]. exists offs'. split; auto.
      intros img Hi. destruct (C img Hi) as (Hb2 & mdata2 & ml2 & Hm2 & Hml2 & Cx). split; auto. exists mdata2, ml2. split; auto. split; auto. inversion Cx; subst; auto.
  Qed.

  Lemma nd_nil v : fixed v -> cur_rest nt (lv_attr v) [] -> exists v', lv_next_data_run v = (v', Ok false) /\ fixed v' /\
    cur_rest nt (lv_attr v') [] /\ lv_entries v' = lv_entries v /\ lv_ss v' = lv_ss v.
  Proof. apply next_data_run_nil. Qed.
  Lemma nd_cons v r cur : fixed v -> cur_rest nt (lv_attr v) (r :: cur) -> exists v', lv_next_data_run v = (v', Ok true) /\ fixed v' /\
    cur_rest nt (lv_attr v') cur /\ lv_entries v' = lv_entries v /\ lv_ss v' = mkSS (Some r) (ss_pos (lv_ss v)) (ss_size (lv_ss v)).
  Proof. apply next_data_run_cons. Qed.

  (** From here on for one of the images. *)
  Context (offs0 : list Z) (parts0 : list (list extent)) (Hy0 : lyg gk bs l0 offs0 (ends_well e)) (Hc0 : conn offs0 parts0) (Hne0 : parts0 <> []).
  Context (Hsize : 0 <= size <= U64_MAX).
  Notation runs := (map (run_of cs) (concat parts0)).
  Definition inv_g := inv lv_ops size runs rest_g.

  Lemma na_start v d : fixed v -> lv_entries v = Some l0 -> gk d -> exists d' v',
    lv_next_attribute v d = (d', (v', Ok true)) /\ rest_g v' (tl runs) /\
    lv_ss v' = mkSS (hd_error runs) (ss_pos (lv_ss v)) (ss_size (lv_ss v)).
  Proof.
    intros Hx Hen Hg. destruct parts0 as [|l1 parts] eqn:Ep; [congruence|].
    assert (He : ent_g (lv_entries v) (l1 :: parts)) by (rewrite Hen; exists offs0; auto).
    assert (Hne : l1 <> []). { destruct (Hc0 _ (proj2 Hg)) as (_ & mdata & ml & _ & _ & C). inversion C; auto. }
    destruct l1 as [|x l1]; [congruence|].
    destruct (na_cons v _ parts d Hx He Hg) as (d2 & v2 & r2 & E2 & X2 & Hh & S2 & C2 & N2).
    exists d2, v2. split; auto. cbn [map hd_error tl concat app] in *. rewrite S2, <- Hh. split; auto. split; auto. exists (map (run_of cs) l1), parts. now rewrite map_app.
  Qed.

  Section Image.
  Context (img : list Z) (Hi : K img).
  Notation gd := (good img true).

  Lemma ent_g_nonempty x parts : ent_g x parts -> Forall (fun l => l <> []) parts.
  Proof.
    destruct x; cbn; [intros (offs & _ & C)|intros ->; constructor]. destruct (C _ Hi) as (_ & mdata & ml & _ & _ & C').
    eapply conn_nonempty. exact C'.
  Qed.
  Lemma adv_cons s r l d : rest_g s (r :: l) -> gd d -> exists d' s',
    so_advance lv_ops s d = (d', (s', Ok true)) /\ rest_g s' l /\
    so_ss lv_ops s' = mkSS (Some r) (ss_pos (so_ss lv_ops s)) (ss_size (so_ss lv_ops s)) /\ gd d' /\
    (length (d_reads d') <= length (d_reads d))%nat.
  Proof.
    intros (Hx & cur & parts & Hr & Hc & He) Hg. cbn [so_advance lv_ops so_ss].
    pose proof (lv_advance_evolves s d) as Hev. unfold lv_advance in *. destruct cur as [|r1 cur].
    - destruct (nd_nil s Hx Hc) as (v1 & E1 & X1 & C1 & N1 & S1). rewrite E1 in *.
      destruct parts as [|l1 parts]; [discriminate|]. pose proof (ent_g_nonempty _ _ He) as Hne. apply Forall_inv in Hne.
      rewrite <- N1 in He. destruct (na_cons v1 l1 parts d X1 He (gk_good _ _ Hi Hg)) as (d2 & v2 & r2 & E2 & X2 & Hh & S2 & C2 & N2). rewrite E2 in *.
      cbn [fst] in Hev. pose proof (good_evolves _ _ _ Hg Hev) as G2. apply evolves_length in Hev.
      destruct l1 as [|x l1]; [congruence|]. cbn [map hd_error concat app] in *. injection Hh as <-. injection Hr as -> ->.
      exists d2, v2. split; auto. split; [|rewrite S2, S1; auto]. split; auto. exists (map (run_of cs) l1), parts. cbn [tl] in C2. rewrite map_app. auto.
    - destruct (nd_cons s r1 cur Hx Hc) as (v1 & E1 & X1 & C1 & N1 & S1). rewrite E1 in *. injection Hr as <- ->.
      exists d, v1. split; auto. split; [|auto]. split; auto. exists cur, parts. rewrite N1. auto.
  Qed.

  Lemma adv_nil s d : rest_g s [] -> gd d -> exists d' s',
    so_advance lv_ops s d = (d', (s', Ok false)) /\ rest_g s' [] /\ so_ss lv_ops s' = so_ss lv_ops s /\ gd d' /\
    (length (d_reads d') <= length (d_reads d))%nat.
  Proof.
    intros (Hx & cur & parts & Hr & Hc & He) Hg. cbn [so_advance lv_ops so_ss].
    symmetry in Hr. apply app_eq_nil in Hr as (-> & Hr).
    assert (parts = []) as ->.
    { destruct parts as [|l parts]; auto. pose proof (ent_g_nonempty _ _ He) as Hne. apply Forall_inv in Hne. destruct l; [congruence|discriminate]. }
    pose proof (lv_advance_evolves s d) as Hev. unfold lv_advance in *.
    destruct (nd_nil s Hx Hc) as (v1 & E1 & X1 & C1 & N1 & S1). rewrite E1 in *. rewrite <- N1 in He.
    destruct (na_nil v1 d X1 He (gk_good _ _ Hi Hg)) as (d2 & v2 & E2 & X2 & A2 & S2 & N2). rewrite E2 in *. cbn [fst] in Hev.
    pose proof (good_evolves _ _ _ Hg Hev) as G2. apply evolves_length in Hev.
    exists d2, v2. split; auto. split; [|rewrite S2, S1; auto]. split; auto. exists [], []. rewrite A2. auto.
  Qed.

  Lemma rew_ok s l d : rest_g s l -> gd d -> ss_size (so_ss lv_ops s) = size -> exists d' s',
    so_rewind lv_ops s d = (d', (s', Ok tt)) /\ rest_g s' (tl runs) /\
    so_ss lv_ops s' = mkSS (hd_error runs) 0 size /\ gd d' /\
    (length (d_reads d') <= length (d_reads d))%nat.
  Proof.
    intros (Hx & _) Hg _. pose proof Hx as (X1 & X2 & X3 & X4 & X5). cbn [so_rewind lv_ops so_ss].
    pose proof (lv_rewind_evolves s d) as Hev. unfold lv_rewind in *.
    destruct (na_start (lv_set_ss (lv_set_entries s (Some (lv_initial s))) (ss_new (lv_size s))) d) as (d2 & v2 & E & R & S2); auto.
    { cbn. now rewrite X2. } { eapply gk_good; eauto. }
    rewrite E in *. cbn [fst] in Hev. pose proof (good_evolves _ _ _ Hg Hev) as G2. apply evolves_length in Hev. exists d2, v2. splits; auto.
    rewrite S2. cbn [lv_ss lv_set_ss ss_new ss_pos ss_size]. now rewrite X5.
  Qed.

  Lemma g_runs_ok : Forall (run_ok img) runs.
  Proof. destruct (Hc0 img Hi) as (_ & mdata & ml & _ & _ & C). eapply runs_all_ok; eauto. Qed.
  Lemma g_img : zlen img <= TWO64.
  Proof. destruct (Hc0 img Hi) as (_ & mdata & ml & _ & V & C). apply (ve_img _ _ _ V). Qed.

  Lemma inv_g_len v : inv_g v -> lv_len v = size.
  Proof. intros (rest & [_ _ (X & _) _ _ _]). apply X. Qed.

  Lemma g_refines fuel : refines (lv_read fuel) (lv_seek fuel) inv_g lv_stream_position (gdf img nt parts0 fuel) (file_content cs img (concat parts0) size) size.
  Proof.
    rewrite <- content_of. pose proof g_img as Himg. split.
    - intros s (rest & [_ H _ _ _ _]). exact H.
    - intros s d n (rest & Hx) (Hg & Hf) Hn. unfold lv_read.
      destruct (read_refines lv_ops img size runs true rest_g lv_set_ok (fun s l x H => H) adv_cons adv_nil rew_ok Himg Hsize g_runs_ok fuel s rest n d Hx Hg Hn Hf)
        as (d' & v' & out & E & H1 & H2 & H3 & [[-> H4]|(? & _)]); [|discriminate]. rewrite E. exists d', v'. split; auto. split; auto. split; auto. split; auto. lia.
    - intros s d sf (rest & Hx) (Hg & Hf) Ha. unfold lv_seek. rewrite (inv_g_len s) by (exists rest; auto).
      destruct (seek_refines lv_ops img size runs true rest_g lv_set_ok (fun s l x H => H) adv_cons adv_nil rew_ok Hsize g_runs_ok fuel s rest sf d Hx Hg Ha ltac:(lia))
        as (d' & v' & out & E & H1 & H3 & [(Hq & -> & Hp & rest' & Hi' & _)|(Hq & -> & ->)]); rewrite E.
      + exists d', v'. split; [split; auto; lia|]. split; [exists rest'; auto|]. auto.
      + exists d', s. split; [split; auto; lia|]. split; [exists rest; auto|]. auto.
  Qed.
  End Image.

  Lemma g_new d : gk d -> exists d' v, lv_new nt l0 inst ty size d = (d', Ok v) /\ inv_g v /\ lv_stream_position v = 0.
  Proof.
    intros Hg. unfold lv_new.
    destruct (na_start (mkLv nt l0 (Some l0) inst ty size None (ss_new size)) d) as (d2 & v2 & E & R & S2); auto. { unfold fixed. cbn. auto 10. }
    rewrite E in *. cbn [lv_ss ss_new ss_pos ss_size] in S2. exists d2, v2. split; auto.
    pose proof (hd_facts _ _ (g_runs_ok _ (proj2 Hg))) as Hhd. split.
    - exists (tl runs). split; unfold pos; cbn [so_ss lv_ops]; rewrite ?S2; cbn [ss_size ss_pos ss_run]; auto.
      + unfold U64_MAX; lia.
      + destruct Hhd as [(E2 & _ & E3)|(r & t & E2 & _ & E3 & _)]; rewrite E3; [exists []|exists [r]]; auto.
      + destruct Hhd as [(E2 & -> & E3)|(r & t & E2 & -> & E3 & Hok)]; cbn; auto. destruct Hok as (? & ? & _). lia.
      + right. destruct Hhd as [(E2 & E4 & E3)|(r & t & E2 & E4 & E3 & Hok)]; rewrite E3; rewrite E4 in S2.
        * apply AtEnd; [cbn; now rewrite S2|]. rewrite E2; cbn; lia.
        * eapply (AtRun _ _ _ _ [] r t 0); eauto; [|destruct Hok; lia]. cbn. rewrite S2. cbn. now rewrite <- (mkRun_eta (d_img d)).
    - unfold lv_stream_position. rewrite S2. auto.
  Qed.
End Value.

Lemma lyg_weaken (g g' : dev -> Prop) bs b : (forall d, g' d -> g d) -> forall offs l, lyg g bs l offs b -> lyg g' bs l offs b.
Proof.
  intros H. induction offs as [|o offs IH]; intros l Y; cbn [lyg] in *; auto.
  intros d Hg. destruct (Y d (H d Hg)) as (d' & l' & x & E & D & Y'). eauto 10.
Qed.

Lemma live_history_g {S} read seek (I : S -> Prop) posf content size (fit : list Z -> Prop) (G : list Z -> dev -> Prop) :
  (forall img, fit img -> refines read seek I posf (G img) (content img) size) ->
  forall h s, I s -> Forall (fun x => fit (d_img (fst x)) /\ G (d_img (fst x)) (fst x) /\ op_ok (snd x)) h ->
  live_run read seek s h = live_cursor content size (posf s) h.
Proof.
  intros R. induction h as [|(d & o) h IH]; intros s Hi Hh; cbn [live_run live_cursor]; auto.
  destruct (Forall_inv Hh) as (Hv & Hg & Ho). apply Forall_inv_tail in Hh. cbn [fst snd] in *.
  destruct (refines_step _ _ _ _ _ _ _ (R _ Hv) s d o Hi Hg Ho) as (d' & s' & E & H3 & H4 & H5). rewrite E.
  destruct (cursor_step (content (d_img d)) size (posf s) o) as [p' r]. cbn [fst snd] in *. f_equal. subst p'. apply IH; auto.
Qed.

Lemma live_list (has : list Z -> Prop) nt mp bs e offs l0 f off parts d0 d1 v h fuel :
  mft_position nt = Some mp -> 32 <= file_record_size nt <= U16_MAX -> bytes_ok bs ->
  bytes_ok (f_data f) -> 0 <= off -> attr_fits (f_data f) off -> off + 56 <= zlen (f_data f) -> type_known (attr_type_at (f_data f) off) -> parts <> [] ->
  (forall img, has img -> lists_parts nt mp bs (attr_type_at (f_data f) off) (attr_instance_at (f_data f) off) e offs parts img) ->
  lyg (gk has) bs l0 offs (ends_well e) ->
  faultless d0 -> has (d_img d0) -> attr_value nt (mkAttr f off (Some l0)) d0 = (d1, Ok v) ->
  Forall (fun x => faultless (fst x) /\ has (d_img (fst x)) /\ op_ok (snd x) /\ (length (d_reads (fst x)) + 2 * length (concat parts) + 2 <= fuel)%nat) h ->
  let size := field 8 (f_data f) (off + 48) in
  live_run (av_read fuel) (av_seek fuel) v h = live_cursor (fun img => file_content (cluster_size nt) img (concat parts) size) size 0 h.
Proof.
  intros Hmp Hfr Hbs Hfb Ho Hfit Hlen Hk Hne Hhas Y Hf0 Hh0 Hv Hh size.
  pose proof (field8_bound (f_data f) (off + 48) Hfb) as Hs. fold size in Hs.
  assert (A1 : attr_nr_data_size (mkAttr f off (Some l0)) = Ok size) by (unfold attr_nr_data_size; now rewrite attr_rd_in by lia).
  assert (A2 : attr_instance (mkAttr f off (Some l0)) = Ok (attr_instance_at (f_data f) off)) by (unfold attr_instance; now rewrite attr_rd_in by lia).
  assert (A3 : attr_ty (mkAttr f off (Some l0)) = Ok (attr_type_at (f_data f) off)) by (destruct (attr_ty_spec f off (Some l0) Ho Hfit) as [T _]; auto).
  revert Hv. unfold attr_value. cbn [at_entries]. rewrite A1, A2, A3. unfold mbind, mlift, mret.
  destruct (g_new has nt mp bs _ _ size e l0 Hmp Hfr Hbs Hk offs parts Y Hhas Hne Hs d0 (conj Hf0 Hh0)) as (d' & w & E & Iw & Pw). rewrite E. intros [= <- <-].
  rewrite <- Pw. change (lv_stream_position w) with (av_stream_position (AVList w)).
  assert (R : forall img, has img -> refines (av_read fuel) (av_seek fuel)
    (fun t => exists s, t = AVList s /\ inv_g has nt mp bs (attr_type_at (f_data f) off) (attr_instance_at (f_data f) off) size e l0 parts s) av_stream_position
    (gdf img nt parts fuel) (file_content (cluster_size nt) img (concat parts) size) size).
  { intros img Hi. eapply (refines_map AVList).
    - apply (g_refines has nt mp bs _ _ size e l0 Hmp Hfr Hbs Hk offs parts Y Hhas Hne Hs img Hi fuel).
    - reflexivity.
    - reflexivity.
    - reflexivity. }
  eapply (live_history_g _ _ _ _ _ _ has (fun img => gdf img nt parts fuel) R).
  - eexists; split; [reflexivity|exact Iw].
  - eapply Forall_impl; [|exact Hh]. intros (d & o) (H1 & H2 & H3 & H4). cbn [fst snd] in *. split; auto. split; auto.
    split; [split; auto|]. rewrite map_length. lia.
Qed.

Lemma live_resident_list nt mp bs p e offs k dI f off parts d0 d1 v h fuel :
  mft_position nt = Some mp -> 32 <= file_record_size nt <= U16_MAX ->
  bytes_ok bs -> zlen bs <= U64_MAX -> position_sane p (zlen bs) -> list_walk bs 0 offs e ->
  bytes_ok (f_data f) -> 0 <= off -> attr_fits (f_data f) off -> off + 56 <= zlen (f_data f) -> type_known (attr_type_at (f_data f) off) -> parts <> [] ->
  let has := lists_parts nt mp bs (attr_type_at (f_data f) off) (attr_instance_at (f_data f) off) e (skipn k offs) parts in
  faultless d0 -> has (d_img d0) ->
  attr_value nt (mkAttr f off (Some (fst (iterate_state (with_dev alist_next) k (alist_of_sval (SVRes (res_new bs p)), dI))))) d0 = (d1, Ok v) ->
  Forall (fun x => faultless (fst x) /\ has (d_img (fst x)) /\ op_ok (snd x) /\ (length (d_reads (fst x)) + 2 * length (concat parts) + 2 <= fuel)%nat) h ->
  let size := field 8 (f_data f) (off + 48) in
  live_run (av_read fuel) (av_seek fuel) v h = live_cursor (fun img => file_content (cluster_size nt) img (concat parts) size) size 0 h.
Proof.
  intros Hmp Hfr Hbs Hl Hp W Hfb Ho Hfit Hlen Hk Hne has Hf0 Hh0 Hv Hh size. pose proof (zlen_nonneg bs) as Hz.
  assert (E : alist_of_sval (SVRes (res_new bs p)) = ALResident (zdrop 0 bs) (pos_add p 0)).
  { cbn [alist_of_sval res_new rv_data]. rewrite zdrop_0 by lia. f_equal. unfold res_data_position, res_new, res_len. cbn [rv_sp rv_data rv_position].
    replace (0 <=? zlen bs) with true by lia. reflexivity. }
  rewrite E in Hv. pose proof (lyg_resident (fun _ => True) bs p 0 offs e Hbs Hl Hp W ltac:(lia)) as Y.
  assert (Hkl : (k <= length offs)%nat). { destruct Hh0 as (_ & mdata & ml & _ & _ & C). eapply connected_nonnil; eauto. }
  pose proof (lyg_after (fun _ => True) (fun _ _ _ _ => Logic.I) bs k _ offs _ dI Y Hkl Logic.I) as Y2.
  refine (live_list has nt mp bs e (skipn k offs) _ f off parts d0 d1 v h fuel Hmp Hfr Hbs Hfb Ho Hfit Hlen Hk Hne (fun _ H => H) _ Hf0 Hh0 Hv Hh).
  apply (lyg_weaken (fun _ => True) _ bs _ (fun _ _ => Logic.I) _ _ Y2).
Qed.

Lemma lyg_nonres cs l enc p size bs (g : dev -> Prop) : encodes 0 l enc -> 0 <= size <= extents_size cs l -> size + U16_MAX <= U64_MAX ->
  bytes_ok bs -> zlen bs = size ->
  (forall d, g d -> faultless d /\ valid_extents cs (d_img d) l /\ file_content cs (d_img d) l size = bs) ->
  forall q offs e, list_walk bs q offs e -> 0 <= q <= size -> forall v,
  nr_at cs l enc p size q v -> lyg g bs (ALNonResident v) (with_cut offs e) (ends_well e).
Proof.
  intros He Hsize Hmax Hb Hcs Hg.
  assert (B2 : forall o, 0 <= lentry_len bs o) by (intros o; apply (field2_bound _ (o + 4) Hb)).
  assert (N : forall o v d, g d -> nr_at cs l enc p size o v -> 0 <= o ->
    (size <= o -> alist_next (ALNonResident v) d = (d, (ALNonResident v, None))) /\
    (o < size -> list_entry_fits bs o -> exists e d' v', decodes_list_entry bs o e /\
       alist_next (ALNonResident v) d = (d', (ALNonResident v', Some (Ok e))) /\ nr_at cs l enc p size (o + lentry_len bs o) v')).
  { intros o v d Hd Ha Ho. destruct (Hg d Hd) as (Hf & Hv & Hc).
    destruct (alist_next_nonres cs (d_img d) l enc p size Hv He Hsize Hmax ltac:(now rewrite Hc) o v d Ha (conj eq_refl (fun _ => Hf)) Ho) as (N1 & N2 & _).
    rewrite Hc in N2. split; auto. intros H1 H2. destruct (N2 H1 H2) as (e & d' & v' & D & _ & E & _ & A). eauto 10. }
  induction 1 as [o H0|o H1 H2|o H1 H2 H3|o offs e H1 H2 H3 W IH]; intros Ho v Ha.
  - intros _ d Hd. exists d. apply (N o v d Hd Ha ltac:(lia)). lia.
  - intros [=].
  - intros d Hd. destruct (proj2 (N o v d Hd Ha ltac:(lia)) ltac:(lia) H2) as (e & d' & v' & D & E & A).
    rewrite E. do 3 eexists. split; [reflexivity|]. split; auto. intros _ d2 Hd2. exists d2.
    specialize (B2 o). apply (N _ v' d2 Hd2 A ltac:(lia)). lia.
  - assert (Hc : with_cut (o :: offs) e = o :: with_cut offs e) by (destruct e; reflexivity). rewrite Hc. clear Hc.
    intros d Hd. destruct (proj2 (N o v d Hd Ha ltac:(lia)) ltac:(lia) H2) as (e1 & d' & v' & D & E & A).
    rewrite E. do 3 eexists. split; [reflexivity|]. split; auto. apply IH; auto. specialize (B2 o). lia.
Qed.

Lemma live_nonresident_list nt mp l enc p lsize w bs e offs k dI f off parts d0 d1 v h fuel :
  mft_position nt = Some mp -> 32 <= file_record_size nt <= U16_MAX ->
  encodes 0 l enc -> 0 <= lsize <= extents_size (cluster_size nt) l -> lsize + U16_MAX <= U64_MAX -> nr_new (cluster_size nt) enc p lsize = Ok w ->
  bytes_ok bs -> zlen bs = lsize -> list_walk bs 0 offs e ->
  bytes_ok (f_data f) -> 0 <= off -> attr_fits (f_data f) off -> off + 56 <= zlen (f_data f) -> type_known (attr_type_at (f_data f) off) -> parts <> [] ->
  let has img := lists_parts nt mp bs (attr_type_at (f_data f) off) (attr_instance_at (f_data f) off) e (skipn k (with_cut offs e)) parts img /\
    valid_extents (cluster_size nt) img l /\ file_content (cluster_size nt) img l lsize = bs in
  faultless dI -> has (d_img dI) -> faultless d0 -> has (d_img d0) ->
  attr_value nt (mkAttr f off (Some (fst (iterate_state (with_dev alist_next) k (alist_of_sval (SVNr w), dI))))) d0 = (d1, Ok v) ->
  Forall (fun x => faultless (fst x) /\ has (d_img (fst x)) /\ op_ok (snd x) /\ (length (d_reads (fst x)) + 2 * length (concat parts) + 2 <= fuel)%nat) h ->
  let size := field 8 (f_data f) (off + 48) in
  live_run (av_read fuel) (av_seek fuel) v h = live_cursor (fun img => file_content (cluster_size nt) img (concat parts) size) size 0 h.
Proof.
  intros Hmp Hfr He Hls Hmax Hn Hbs Hbl W Hfb Ho Hfit Hlen Hk Hne has HfI HhI Hf0 Hh0 Hv Hh size.
  assert (Y : lyg (gk has) bs (ALNonResident w) (with_cut offs e) (ends_well e)).
  { apply (lyg_nonres (cluster_size nt) l enc p lsize bs (gk has) He Hls Hmax Hbs Hbl) with (q := 0); auto; [|lia|].
    - intros d (H1 & H2 & H3 & H4). auto.
    - destruct Hh0 as (_ & V0 & _). destruct (nr_extents_new (cluster_size nt) _ l enc p lsize V0 He) as (v0 & E0 & I0 & P0 & _). assert (v0 = w) by congruence. subst v0.
      split; auto. split; auto. intros _. eapply (nr_fresh_position (cluster_size nt) _ l enc p lsize); eauto; lia. }
  change (alist_of_sval (SVNr w)) with (ALNonResident w) in Hv.
  assert (Hkl : (k <= length (with_cut offs e))%nat). { destruct Hh0 as ((_ & mdata & ml & _ & _ & C) & _). eapply connected_nonnil; eauto. }
  pose proof (lyg_after (gk has) (gk_evolves has) bs k _ _ _ dI Y Hkl (conj HfI HhI)) as Y2.
  refine (live_list has nt mp bs e (skipn k (with_cut offs e)) _ f off parts d0 d1 v h fuel Hmp Hfr Hbs Hfb Ho Hfit Hlen Hk Hne _ Y2 Hf0 Hh0 Hv Hh).
  intros img (H & _). exact H.
Qed.
