(** * Values on a volume that changes. *)
From Verif Require Import Base Dev Types Record DataRuns Stream NonResident Resident Attribute File AttrList Spec SpecValues SpecLive BaseProofs DevProofs StreamProofs
  ReaderProofs ResidentProofs NonResidentProofs AttributeProofs FileProofs StructuredProofs ValueProofs.
From Coq Require Import Lia.

Section Live.
  Context {S} (read : S -> Z -> dev -> dev * (S * res (list Z))) (seek : S -> seekfrom -> dev -> dev * (S * res Z))
    (I : S -> Prop) (posf : S -> Z) (content : list Z -> list Z) (size : Z) (fit : list Z -> Prop)
    (R : forall img, fit img -> refines read seek I posf (good img true) (content img) size).

  Lemma live_history h : forall s, I s -> Forall (fun x => faultless (fst x) /\ fit (d_img (fst x)) /\ op_ok (snd x)) h ->
    live_run read seek s h = live_cursor content size (posf s) h.
  Proof.
    induction h as [|(d & o) h IH]; intros s Hi Hh; cbn [live_run live_cursor]; auto.
    destruct (Forall_inv Hh) as (Hf & Hv & Ho). apply Forall_inv_tail in Hh. cbn [fst snd] in *.
    destruct (refines_step _ _ _ _ _ _ _ (R _ Hv) s d o Hi (conj eq_refl (fun _ => Hf)) Ho) as (d' & s' & E & H3 & H4 & H5). rewrite E.
    destruct (cursor_step (content (d_img d)) size (posf s) o) as [p' r]. cbn [fst snd] in *. f_equal. subst p'. apply IH; auto.
  Qed.
End Live.

Lemma live_simple nt f o d0 d1 v : attr_value nt (mkAttr f o None) d0 = (d1, Ok v) ->
  exists s, v = AVSimple s /\ attr_value_simple (cluster_size nt) (mkAttr f o None) = Ok s /\ d1 = d0.
Proof.
  unfold attr_value. cbn [at_entries]. destruct (attr_value_simple (cluster_size nt) (mkAttr f o None)) as [s|e| |]; intros [= <- <-]; eauto.
Qed.

Lemma live_nonresident nt f o d0 d1 v l h fuel : bytes_ok (f_data f) -> 0 <= o -> attr_fits (f_data f) o -> ~ attr_resident_at (f_data f) o ->
  o + 56 <= zlen (f_data f) -> field 2 (f_data f) (o + 32) <= attr_len_at (f_data f) o ->
  encodes 0 l (slice (f_data f) (o + field 2 (f_data f) (o + 32)) (o + attr_len_at (f_data f) o)) ->
  attr_value nt (mkAttr f o None) d0 = (d1, Ok v) ->
  Forall (fun x => faultless (fst x) /\ valid_extents (cluster_size nt) (d_img (fst x)) l /\ op_ok (snd x)) h ->
  live_run (av_read fuel) (av_seek fuel) v h =
  live_cursor (fun img => file_content (cluster_size nt) img l (field 8 (f_data f) (o + 48))) (field 8 (f_data f) (o + 48)) 0 h.
Proof.
  intros Hb Ho Hf Hr Hl Hro He Ha Hh. destruct (live_simple _ _ _ _ _ _ Ha) as (s & -> & Es & _).
  destruct h as [|(dd & oo) h]; [reflexivity|]. destruct (Forall_inv Hh) as (_ & Hv & _). cbn [fst snd] in Hv.
  rewrite (attr_value_extents f _ o None Hb Ho Hf Hl Hr Hro) in Es. pose proof (field8_bound (f_data f) (o + 48) Hb) as Hs.
  set (p := pos_add _ _) in Es. set (size := field 8 _ (o + 48)) in *. set (enc := slice _ _ _) in *.
  destruct (nr_extents_new (cluster_size nt) _ l enc p size Hv He) as (n & E & Hi & Hp & _). rewrite E in Es. injection Es as <-.
  rewrite <- Hp. change (nr_stream_position n) with (av_stream_position (AVSimple (SVNr n))).
  refine (live_history _ _ (fun t => exists s, t = AVSimple (SVNr s) /\ _ s) _ _ _ (fun img => valid_extents (cluster_size nt) img l) _ _ _ _ Hh); [|exists n; split; [reflexivity|exact Hi]].
  intros img Hv'. eapply (refines_map (fun n => AVSimple (SVNr n))).
  - apply (nr_extents_refines _ img l enc p size Hv' He); lia.
  - intros s k d. cbn [av_read sv_read]. destruct (nr_read s k d) as [? [? ?]]. reflexivity.
  - intros s k d. cbn [av_seek sv_seek]. destruct (nr_seek s k d) as [? [? ?]]. reflexivity.
  - reflexivity.
Qed.

Lemma live_resident nt f o d0 d1 v bs h fuel : bytes_ok (f_data f) -> 0 <= o -> attr_fits (f_data f) o -> attr_resident_at (f_data f) o ->
  o + 22 <= zlen (f_data f) -> attr_value_at (f_data f) o bs ->
  attr_value nt (mkAttr f o None) d0 = (d1, Ok v) -> Forall (fun x => op_ok (snd x)) h ->
  live_run (av_read fuel) (av_seek fuel) v h = live_cursor (fun _ => bs) (zlen bs) 0 h.
Proof.
  intros Hb Ho Hf Hr Hl Hv Ha Hh. destruct (live_simple _ _ _ _ _ _ Ha) as (s & -> & Es & _).
  destruct (attr_content_value (cluster_size nt) [] f o None bs Hb Ho Hf (ac_resident _ _ _ _ _ Hr Hl Hv)) as (s' & Es' & Hvo).
  rewrite Es in Es'. injection Es' as <-.
  assert (exists p, s = SVRes (res_new bs p) /\ zlen bs <= U64_MAX) as (p & -> & Hz).
  { inversion Hvo; subst; eauto. exfalso. revert Es. unfold attr_value_simple. destruct Hf as (F1 & F2 & F3).
    unfold attr_is_resident. rewrite attr_rd_in by lia. unfold attr_resident_at in Hr. rewrite Hr. cbn [rbind Z.eqb].
    destruct (attr_resident_value _); discriminate. }
  change 0 with (av_stream_position (AVSimple (SVRes (res_new bs p)))).
  assert (G : forall h s, (exists r, s = AVSimple (SVRes r) /\ rv_data r = bs /\ rv_position r = p /\ 0 <= rv_sp r <= U64_MAX) -> Forall (fun x => op_ok (snd x)) h ->
    live_run (av_read fuel) (av_seek fuel) s h = live_cursor (fun _ => bs) (zlen bs) (av_stream_position s) h).
  { clear - Hz. pose proof (refines_map (fun r => AVSimple (SVRes r)) _ _ _ _ _ _ _ (av_read fuel) (av_seek fuel) av_stream_position (res_refines bs p Hz)) as R.
    specialize (R ltac:(intros s k d; cbn [av_read sv_read]; destruct (res_read s k d) as [? [? ?]]; reflexivity)
      ltac:(intros s k d; cbn [av_seek sv_seek]; destruct (res_seek s k d) as [? [? ?]]; reflexivity) ltac:(reflexivity)).
    induction h as [|(d & o) h IH]; intros s Hi Hh; cbn [live_run live_cursor]; auto.
    pose proof (Forall_inv Hh) as Ho. apply Forall_inv_tail in Hh. cbn [fst snd] in *.
    destruct (refines_step _ _ _ _ _ _ _ R s d o Hi Logic.I Ho) as (d' & s' & E & H3 & H4 & H5). rewrite E.
    destruct (cursor_step bs (zlen bs) (av_stream_position s) o) as [p' r]. cbn [fst snd] in *. f_equal. subst p'. apply IH; auto. }
  apply G; auto. eexists. split; [reflexivity|]. cbn. split; auto. split; auto. unfold U64_MAX; lia.
Qed.
