(** * Values after errors: going back puts them in order. *)
From Coq Require Import Lia.
From Verif Require Import Base Dev Types Record DataRuns Stream NonResident Resident Attribute File Structured AttrList
  Spec SpecValues SpecIndex SpecAttrList SpecAttached SpecRecovery BaseProofs DevProofs StreamProofs DataRunsProofs ReaderProofs ResidentProofs
  NonResidentProofs AttributeProofs FileProofs ValueProofs ReadLenProofs AttrListIterProofs AttrListProofs AttrListValueProofs AttachedProofs AttachedLenProofs.

Lemma optimize_bound s sf len p : 0 <= ss_pos s <= U64_MAX -> 0 <= len <= U64_MAX -> seek_arg_ok sf -> optimize_seek s sf len = Ok p ->
  match p with SStart n => 0 <= n <= U64_MAX | SCurrent n => 0 <= n | SEnd _ => False end.
Proof.
  intros Hp Hl Ha. unfold optimize_seek.
  assert (K : match simplify_seek s sf len with Ok (SStart n) => 0 <= n <= U64_MAX | Ok (SCurrent n) => 0 <= n | Ok (SEnd _) => False | _ => True end).
  { unfold simplify_seek, checked_add64, checked_sub64. destruct sf as [n|n|n]; cbn [seek_arg_ok] in Ha; auto.
    - destruct (0 <=? n) eqn:E; [destruct (_ <=? U64_MAX) eqn:E1; auto; lia|].
      assert (Hneg : (- n) mod TWO64 = - n) by (apply Z.mod_small; unfold TWO64, I64_MIN in *; lia). rewrite Hneg. destruct (_ <=? len) eqn:E1; auto; lia.
    - destruct (0 <=? n) eqn:E; [destruct (_ <=? U64_MAX) eqn:E1; auto; lia|].
      assert (Hneg : (- n) mod TWO64 = - n) by (apply Z.mod_small; unfold TWO64, I64_MIN in *; lia). rewrite Hneg. destruct (_ <=? ss_pos s) eqn:E1; auto; lia. }
  destruct (simplify_seek s sf len) as [[n|n|n]|e| |]; cbn [rbind]; try discriminate; try contradiction.
  - unfold checked_sub64. destruct (_ <=? n) eqn:E; [destruct (_ <=? I64_MAX)|]; intros [= <-]; auto; lia.
  - intros [= <-]. exact K.
Qed.
Lemma optimize_back s sf len : 0 <= ss_pos s <= U64_MAX -> 0 <= len <= U64_MAX -> seek_arg_ok sf ->
  let q := seek_target len (ss_pos s) sf in 0 <= q < ss_pos s -> optimize_seek s sf len = Ok (SStart q).
Proof.
  intros Hp Hl Ha q Hq. unfold optimize_seek, simplify_seek, checked_add64, checked_sub64. subst q. destruct sf as [n|n|n]; cbn [seek_target seek_arg_ok] in *.
  - cbn [rbind]. now replace (ss_pos s <=? n) with false by lia.
  - destruct (0 <=? n) eqn:E.
    + replace (len + n <=? U64_MAX) with true by lia. cbn [rbind]. now replace (ss_pos s <=? len + n) with false by lia.
    + assert (Hneg : (- n) mod TWO64 = - n) by (apply Z.mod_small; unfold TWO64, I64_MIN in *; lia). rewrite Hneg. replace (- n <=? len) with true by lia. cbn [rbind].
      replace (len - - n) with (len + n) by lia. now replace (ss_pos s <=? len + n) with false by lia.
  - replace (0 <=? n) with false by lia.
    assert (Hneg : (- n) mod TWO64 = - n) by (apply Z.mod_small; unfold TWO64, I64_MIN in *; lia). rewrite Hneg. replace (- n <=? ss_pos s) with true by lia. cbn [rbind].
    replace (ss_pos s - - n) with (ss_pos s + n) by lia. now replace (ss_pos s <=? ss_pos s + n) with false by lia.
Qed.

(** What stays as it is, whatever happens. *)
Section Keep.
  Context {S : Type} (o : stream_ops S) (F : S -> Prop) (size : Z).
  Context (Hsize : 0 <= size <= U64_MAX) (Hset : forall s x, so_ss o (so_set o s x) = x) (Fset : forall s x, F s -> F (so_set o s x))
    (Fadv : forall s d d' s' x, F s -> so_advance o s d = (d', (s', x)) -> F s' /\ ss_pos (so_ss o s') = ss_pos (so_ss o s) /\ ss_size (so_ss o s') = ss_size (so_ss o s))
    (Frew : forall s d d' s' x, F s -> ss_size (so_ss o s) = size -> so_rewind o s d = (d', (s', x)) -> F s' /\ ss_pos (so_ss o s') = 0 /\ ss_size (so_ss o s') = size).
  Definition kept (s : S) : Prop := F s /\ ss_size (so_ss o s) = size /\ 0 <= ss_pos (so_ss o s) <= U64_MAX.

  Lemma kept_set s x : kept s -> ss_size x = size -> 0 <= ss_pos x <= U64_MAX -> kept (so_set o s x).
  Proof. intros (H1 & _ & _) Hs Hp. split; auto. now rewrite Hset. Qed.
  Lemma kept_advance s d d' s' x : kept s -> so_advance o s d = (d', (s', x)) -> kept s'.
  Proof. intros (H1 & H2 & H3) E. destruct (Fadv _ _ _ _ _ H1 E) as (K1 & K2 & K3). split; auto. rewrite K2, K3. auto. Qed.
  Lemma kept_read fuel : forall s n acc d d' s' x, kept s -> 0 <= n -> stream_read_loop o fuel s n acc d = (d', (s', x)) -> kept s'.
  Proof.
    induction fuel as [|fuel IH]; intros s n acc d d' s' x Hk Hn; cbn [stream_read_loop]; destruct (n <=? zlen acc) eqn:E0; try (intros [= <- <- <-]; auto; fail).
    destruct (ss_read_data_run (so_ss o s) (n - zlen acc) d) as [d1 [ss1 r]] eqn:E1.
    assert (Hm : 0 <= n - zlen acc) by lia. pose proof (ss_read_pos _ _ _ _ _ _ Hm E1) as (Hs1 & H1). pose proof Hk as (_ & K2 & K3).
    assert (Hk1 : kept (so_set o s ss1)).
    { apply kept_set; auto; [congruence|]. destruct r as [bs|e| |]; try lia. destruct H1 as (_ & P & B). pose proof (zlen_nonneg bs). destruct B as [->|B]; [rewrite zlen_nil in P|]; lia. }
    destruct r as [[|b bs]|e| |]; try (intros [= <- <- <-]; auto; fail).
    - destruct (so_advance _ _ d1) as [d2 [s2 y]] eqn:E. pose proof (kept_advance _ _ _ _ _ Hk1 E) as H2.
      destruct y as [[|]|e| |]; try (intros [= <- <- <-]; auto; fail). intros H. exact (IH _ _ _ _ _ _ _ H2 Hn H).
    - intros H. exact (IH _ _ _ _ _ _ _ Hk1 Hn H).
  Qed.
  Lemma kept_loop fuel : forall s b left d d' s' x, kept s -> stream_seek_loop o fuel s b left d = (d', (s', x)) -> kept s'.
  Proof.
    induction fuel as [|fuel IH]; intros s b left d d' s' x Hk; cbn [stream_seek_loop]; destruct (left <=? 0); try (intros [= <- <- <-]; auto; fail).
    destruct (ss_seek_data_run (so_ss o s) b left) as [[ss1 left1] y] eqn:E1. pose proof Hk as (_ & K2 & K3).
    assert (Hp : ss_pos ss1 = ss_pos (so_ss o s)).
    { unfold ss_seek_data_run in E1. destruct (ss_run _) as [r|]; [|congruence]. destruct (_ <? _); [|congruence]. destruct (run_seek _ _) as [r1 z]. injection E1 as <- _ _. reflexivity. }
    assert (Hk1 : kept (so_set o s ss1)) by (apply kept_set; auto; [rewrite (seek_data_run_size _ _ _ _ _ _ E1); auto|lia]).
    destruct y as [[|]|e| |]; try (intros [= <- <- <-]; auto; fail).
    destruct (so_advance _ _ d) as [d2 [s2 y]] eqn:E. pose proof (kept_advance _ _ _ _ _ Hk1 E) as H2.
    destruct y as [[|]|e| |]; try (intros [= <- <- <-]; auto; fail).
    - intros H. exact (IH _ _ _ _ _ _ _ H2 H).
    - intros [= <- <- <-]. destruct H2 as (J1 & J2 & J3). apply kept_set; [split; auto|exact J2|exact J3].
  Qed.
  Lemma kept_finish pos s d d' s' x r : kept s -> match pos with SStart n => 0 <= n <= U64_MAX | SCurrent n => 0 <= n | SEnd _ => True end ->
    stream_seek_finish o pos (d, (s, r)) = (d', (s', x)) -> kept s'.
  Proof.
    intros Hk Hp. pose proof Hk as (_ & K2 & K3). destruct r as [u|e| |]; cbn [stream_seek_finish]; try (intros [= <- <- <-]; auto; fail).
    destruct pos as [n|n|n]; [| |destruct (U64_MAX <? _) eqn:E]; intros [= <- <- <-]; auto; apply kept_set; auto; cbn [ss_pos]; lia.
  Qed.
  Lemma kept_seek fuel s sf d d' s' x : kept s -> seek_arg_ok sf -> stream_seek o fuel s size sf d = (d', (s', x)) -> kept s'.
  Proof.
    intros Hk Ha. unfold stream_seek. pose proof Hk as (K1 & K2 & K3).
    destruct (optimize_seek (so_ss o s) sf size) as [p|e| |] eqn:Eo; try (intros [= <- <- <-]; auto; fail).
    pose proof (optimize_bound _ _ _ _ K3 Hsize Ha Eo) as Hb. destruct p as [n|n|n]; [| contradiction |].
    - destruct (so_rewind o s d) as [d1 [s1 y]] eqn:E. destruct (Frew _ _ _ _ _ K1 K2 E) as (R1 & R2 & R3).
      assert (Hk1 : kept s1) by (split; auto; split; auto; unfold U64_MAX; lia). destruct y as [u|e| |]; try (intros [= <- <- <-]; auto; fail).
      destruct (stream_seek_loop o fuel s1 true n d1) as [d2 [s2 y]] eqn:E2. pose proof (kept_loop _ _ _ _ _ _ _ _ Hk1 E2) as Hk2. intros H.
      eapply kept_finish; [exact Hk2| |exact H]. exact Hb.
    - destruct (0 <=? n); [|intros [= <- <- <-]; auto].
      destruct (stream_seek_loop o fuel s false n d) as [d2 [s2 y]] eqn:E2. pose proof (kept_loop _ _ _ _ _ _ _ _ Hk E2) as Hk2. intros H.
      eapply kept_finish; [exact Hk2| |exact H]. exact Hb.
  Qed.

  (** A seek that goes back does not depend on where the reader was. *)
  Lemma seek_back_same fuel s w sf d : kept s -> ss_pos (so_ss o w) = ss_pos (so_ss o s) -> so_rewind o s d = so_rewind o w d -> seek_arg_ok sf ->
    let q := seek_target size (ss_pos (so_ss o s)) sf in 0 <= q < ss_pos (so_ss o s) -> stream_seek o fuel s size sf d = stream_seek o fuel w size sf d.
  Proof.
    intros (K1 & K2 & K3) Hw Hr Ha q Hq. unfold stream_seek. rewrite (optimize_back (so_ss o s) sf size K3 Hsize Ha Hq).
    assert (Hq' : 0 <= seek_target size (ss_pos (so_ss o w)) sf < ss_pos (so_ss o w)) by (rewrite Hw; exact Hq).
    rewrite (optimize_back (so_ss o w) sf size ltac:(rewrite Hw; exact K3) Hsize Ha Hq'). rewrite Hw, Hr. reflexivity.
  Qed.
End Keep.

(** From a reader [s] that equals a good one [w] as far as the seek is concerned. *)
Lemma recover {S} read seek (I : S -> Prop) posf good c size (s v0 : S) d sf : refines read seek I posf good c size -> I v0 -> good d -> 0 <= posf s <= U64_MAX -> seek_arg_ok sf ->
  (forall w, I w -> posf w = posf s -> seek s sf d = seek w sf d) -> let q := seek_target size (posf s) sf in 0 <= q < posf s ->
  exists d4 s4, seek s sf d = (d4, (s4, Ok q)) /\ acts_as read seek s4 d4 c size q.
Proof.
  intros R H0 Hg Hp Ha Hs q Hq.
  destruct (rf_seek _ _ _ _ _ _ _ R v0 d (SStart (posf s)) H0 Hg Hp) as (d1 & w & _ & Iw & [(_ & _ & Pw)|(N & _)]); [|cbn [seek_target] in N; lia]. cbn [seek_target] in Pw.
  destruct (rf_seek _ _ _ _ _ _ _ R w d sf Iw Hg Ha) as (d4 & s4 & G4 & I4 & [(_ & E & P4)|(N & _)]); rewrite Pw in *; [|fold q in N; lia].
  exists d4, s4. split; [rewrite (Hs w Iw Pw); exact E|]. fold q in P4. rewrite <- P4. eapply refines_acts; eauto.
Qed.

(** ** Values of one attribute *)
Lemma av_simple_exec {S} (inj : S -> sval) read seek k v d ops d2 v2 :
  (forall s n d, sv_read (inj s) n d = let '(d', (s', x)) := read s n d in (d', (inj s', x))) ->
  (forall s n d, sv_seek (inj s) n d = let '(d', (s', x)) := seek s n d in (d', (inj s', x))) ->
  reader_exec (av_read k) (av_seek k) (AVSimple (inj v)) d ops = (d2, v2) -> exists w, v2 = AVSimple (inj w) /\ reader_exec read seek v d ops = (d2, w).
Proof.
  intros Hr Hs. revert v d. induction ops as [|o ops IH]; intros v d; cbn [reader_exec]; [intros [= <- <-]; eauto|]. unfold reader_step. destruct o as [n|sf]; cbn [av_read av_seek].
  - rewrite Hr. destruct (read v n d) as [d1 [v1 r]]. apply IH.
  - rewrite Hs. destruct (seek v sf d) as [d1 [v1 r]]. apply IH.
Qed.
Lemma attr_resumes nt img f o bs : bytes_ok (f_data f) -> 0 <= o -> attr_fits (f_data f) o -> attr_content (cluster_size nt) img (f_data f) o bs ->
  resumes nt (mkAttr f o None) img bs.
Proof.
  intros Hb Ho Hf Hc d d1 v Ev k0 ops d' d2 v2 Hi Hop Hex d3 k Hd3 Hi3. destruct (attr_content_value _ _ _ _ None _ Hb Ho Hf Hc) as (w & Ew & Hw).
  unfold attr_value, mbind, mlift in Ev. cbn [at_entries] in Ev. rewrite Ew in Ev. unfold mret in Ev. injection Ev as <- <-.
  destruct Hw as [bs p Hl|l enc p size n Hv He Hs Hle Hn].
  - destruct (av_simple_exec SVRes res_read res_seek _ _ _ _ _ _ ltac:(reflexivity) ltac:(reflexivity) Hex) as (w & -> & Hx).
    pose proof (res_refines bs p Hl) as R.
    destruct (refines_exec _ _ _ _ _ _ _ R ops (res_new bs p) d' d2 w) as (I2 & _); auto. { split; auto. split; auto. cbn. unfold U64_MAX; lia. }
    pose proof (refines_map SVRes _ _ _ _ _ _ _ sv_read sv_seek sv_stream_position R ltac:(reflexivity) ltac:(reflexivity) ltac:(reflexivity)) as R'.
    pose proof (refines_map AVSimple _ _ _ _ _ _ _ (av_read k) (av_seek k) av_stream_position R' ltac:(reflexivity) ltac:(reflexivity) ltac:(reflexivity)) as R''.
    eapply refines_acts; [exact R''| |exact Logic.I]. eexists. split; [reflexivity|]. eexists. split; [reflexivity|exact I2].
  - destruct (av_simple_exec SVNr nr_read nr_seek _ _ _ _ _ _ ltac:(reflexivity) ltac:(reflexivity) Hex) as (w & -> & Hx).
    destruct (nr_extents_new (cluster_size nt) img l enc p size Hv He) as (n' & E & I0 & _). assert (n' = n) by congruence. subst n'.
    destruct (nr_exec_inv (cluster_size nt) img l enc p size Hv He Hs false ops n d' d2 w I0) as (I2 & _); auto. { split; auto. discriminate. }
    rewrite (content_size (cluster_size nt) img l size Hv) by lia. pose proof (nr_extents_refines (cluster_size nt) img l enc p size Hv He Hs) as R.
    pose proof (refines_map SVNr _ _ _ _ _ _ _ sv_read sv_seek sv_stream_position R ltac:(reflexivity) ltac:(reflexivity) ltac:(reflexivity)) as R'.
    pose proof (refines_map AVSimple _ _ _ _ _ _ _ (av_read k) (av_seek k) av_stream_position R' ltac:(reflexivity) ltac:(reflexivity) ltac:(reflexivity)) as R''.
    eapply refines_acts; [exact R''| |split; auto]. eexists. split; [reflexivity|]. eexists. split; [reflexivity|exact I2].
Qed.

(** ** Values in several records *)
Section ListValue.
  Context (nt : ntfs) (ty inst size : Z) (l0 : alist).
  Notation fixed := (lv_fixed nt ty inst size l0).
  Lemma next_entry_fixed v d d' v' x : fixed v -> lv_next_entry v d = (d', (v', x)) -> fixed v'.
  Proof.
    intros H. unfold lv_next_entry. destruct (lv_entries v) as [l|]; [|intros [= <- <- <-]; auto].
    destruct (alist_next l d) as [d1 [l1 [[e|e| |]|]]]; try (intros [= <- <- <-]; exact H).
    destruct (_ =? _); [|intros [= <- <- <-]; exact H]. destruct (le_ty e); try (intros [= <- <- <-]; exact H). destruct (_ =? _); intros [= <- <- <-]; exact H.
  Qed.
  Lemma next_attribute_fixed v d d' v' x : fixed v -> lv_next_attribute v d = (d', (v', x)) -> fixed v'.
  Proof.
    intros H. unfold lv_next_attribute. destruct (lv_next_entry v d) as [d1 [v1 r]] eqn:E. pose proof (next_entry_fixed _ _ _ _ _ H E) as H1.
    assert (K : forall (d2 : dev) (r2 : res bool), (d2, (v1, r2)) = (d', (v', x)) -> fixed v') by (intros d2 r2 [= <- <- <-]; exact H1).
    destruct r as [[e|e| |]|]; eauto. destruct (le_to_file _ _ _) as [d2 [f|y| |]]; eauto. destruct (le_to_attribute e f) as [a|y| |]; eauto.
    destruct (lv_attr_runs a) as [[data p]|y| |]; eauto. destruct (druns_next _ _ _ _) as [s' [[r|y| |]|]]; eauto.
    intros [= <- <- <-]. exact H1.
  Qed.
  Lemma lv_advance_fixed v d d' v' x : fixed v -> lv_advance v d = (d', (v', x)) -> fixed v'.
  Proof.
    intros H. unfold lv_advance. destruct (lv_next_data_run v) as [v1 r] eqn:E.
    assert (H1 : fixed v1).
    { unfold lv_next_data_run in E. destruct (lv_attr v) as [a|]; [|injection E as <- <-; exact H]. destruct (as_runs a) as [s|]; [|injection E as <- <-; exact H].
      destruct (let? at_ := _ in _) as [[data p]|y| |]; try (injection E as <- <-; exact H).
      destruct (druns_next _ _ _ _) as [s' [[r0|y| |]|]]; injection E as <- <-; exact H. }
    destruct r as [[|]|e| |]; try (intros [= <- <- <-]; exact H1). intros E2. eapply next_attribute_fixed; eauto.
  Qed.
  Lemma lv_rewind_fixed v d d' v' x : fixed v -> lv_rewind v d = (d', (v', x)) -> fixed v' /\ ss_pos (lv_ss v') = 0 /\ ss_size (lv_ss v') = size.
  Proof.
    intros H. unfold lv_rewind. destruct (lv_next_attribute _ d) as [d1 [v1 r]] eqn:E.
    assert (F : fixed v1) by (eapply next_attribute_fixed; [|exact E]; exact H).
    pose proof (lv_next_attribute_pos _ _ _ _ _ E) as (P1 & P2 & _). cbn [lv_ss lv_set_ss ss_new ss_pos ss_size] in P1, P2.
    assert (Z : lv_size v = size) by apply H. assert (K : fixed v1 /\ ss_pos (lv_ss v1) = 0 /\ ss_size (lv_ss v1) = size) by (split; auto; split; congruence).
    destruct r; intros [= <- <- <-]; exact K.
  Qed.
  Notation keep := (kept lv_ops fixed size).
  Context (Hsize : 0 <= size <= U64_MAX).
  Lemma lv_keep k v d ops d2 v2 : keep v -> Forall op_ok ops -> reader_exec (lv_read k) (lv_seek k) v d ops = (d2, v2) -> keep v2.
  Proof.
    intros Hk Ho. revert v d Hk. induction Ho as [|o ops Ho _ IH]; intros v d Hk E; cbn [reader_exec] in E; [injection E as <- <-; auto|].
    assert (A : forall s d d' s' x, fixed s -> so_advance lv_ops s d = (d', (s', x)) -> fixed s' /\ ss_pos (so_ss lv_ops s') = ss_pos (so_ss lv_ops s) /\ ss_size (so_ss lv_ops s') = ss_size (so_ss lv_ops s)).
    { intros s e e' s' x H1 H2. split; [eapply lv_advance_fixed; eauto|]. destruct (lv_advance_pos _ _ _ _ _ H2) as (? & ? & _). auto. }
    assert (R : forall s d d' s' x, fixed s -> ss_size (so_ss lv_ops s) = size -> so_rewind lv_ops s d = (d', (s', x)) -> fixed s' /\ ss_pos (so_ss lv_ops s') = 0 /\ ss_size (so_ss lv_ops s') = size).
    { intros s e e' s' x H1 _ H3. eapply lv_rewind_fixed; eauto. }
    assert (T : forall s x, fixed s -> fixed (so_set lv_ops s x)) by (intros s x H; exact H).
    unfold reader_step in E. destruct o as [n|sf].
    - destruct (lv_read k v n d) as [d1 [v1 r]] eqn:E1. apply (IH v1 d1); auto. unfold lv_read in E1. cbn [op_ok] in Ho.
      exact (kept_read lv_ops fixed size Hsize (fun _ _ => eq_refl) T A R _ _ _ _ _ _ _ _ Hk (proj1 Ho) E1).
    - destruct (lv_seek k v sf d) as [d1 [v1 r]] eqn:E1. apply (IH v1 d1); auto. unfold lv_seek in E1.
      assert (L : lv_len v = size) by (destruct Hk as (F & _); apply F). rewrite L in E1.
      exact (kept_seek lv_ops fixed size Hsize (fun _ _ => eq_refl) T A R _ _ _ _ _ _ _ Hk Ho E1).
  Qed.
  Lemma lv_new_kept d d1 v : lv_new nt l0 inst ty size d = (d1, Ok v) -> keep v.
  Proof.
    unfold lv_new. destruct (lv_next_attribute _ d) as [d2 [v1 r]] eqn:E.
    assert (F : fixed v1) by (eapply next_attribute_fixed; [|exact E]; unfold lv_fixed; cbn; auto 10).
    pose proof (lv_next_attribute_pos _ _ _ _ _ E) as (P1 & P2 & _). cbn [lv_ss ss_new ss_pos ss_size] in P1, P2.
    destruct r; try discriminate. intros [= <- <-]. split; auto. cbn [so_ss lv_ops]. rewrite P1, P2. split; auto. unfold U64_MAX; lia.
  Qed.

  (** What was read of the attribute before does not matter when the next one is found. *)
  Lemma next_entry_attr v a d : lv_next_entry (lv_set_attr v a) d = (let '(d1, (v1, r)) := lv_next_entry v d in (d1, (lv_set_attr v1 a, r))).
  Proof.
    unfold lv_next_entry. cbn [lv_entries lv_set_attr lv_instance lv_ty]. destruct (lv_entries v) as [l|]; [|reflexivity].
    destruct (alist_next l d) as [d1 [l1 [[e|e| |]|]]]; try reflexivity.
    destruct (_ =? _); [|reflexivity]. destruct (le_ty e); try reflexivity. destruct (_ =? _); reflexivity.
  Qed.
  Lemma next_attribute_attr v a d d' v' : lv_next_attribute v d = (d', (v', Ok true)) -> lv_next_attribute (lv_set_attr v a) d = (d', (v', Ok true)).
  Proof.
    unfold lv_next_attribute. rewrite next_entry_attr. destruct (lv_next_entry v d) as [d1 [v1 [[e|e| |]|]]]; try discriminate. cbn [lv_ntfs lv_set_attr].
    destruct (le_to_file _ _ _) as [d2 [f|y| |]]; try discriminate. destruct (le_to_attribute e f) as [x|y| |]; try discriminate.
    destruct (lv_attr_runs x) as [[data p]|y| |]; try discriminate. destruct (druns_next _ _ _ _) as [s' [[r|y| |]|]]; try discriminate.
    intros [= <- <-]. reflexivity.
  Qed.
End ListValue.

Section Recover.
  Context (img : list Z) (nt : ntfs) (mp : Z) (mdata : list Z) (ml : list extent) (bs : list Z) (ty inst size : Z) (e : list_end) (l0 : alist).
  Context (Hb : bytes_ok img) (Hmp : mft_position nt = Some mp) (Hfr : 32 <= file_record_size nt <= U16_MAX)
    (Hm : mft_at img mp (file_record_size nt) mdata ml) (Hml : valid_extents (cluster_size nt) img ml).
  Context (Hbs : bytes_ok bs) (Hk : type_known ty).
  Context (offs : list Z) (parts : list (list extent)) (Hy : lyields img bs l0 offs (ends_well e)) (Hc : connected img nt ml bs ty inst e offs parts) (Hne : parts <> []).
  Context (Hsize : 0 <= size <= U64_MAX).
  Notation fixed := (lv_fixed nt ty inst size l0).
  Notation linv := (lv_inv img nt ml bs ty inst size e l0 parts).

  Lemma inv_fixed v : linv v -> fixed v /\ ss_size (lv_ss v) = size.
  Proof. intros (rest & [Z1 _ (X & _) _ _ _]). split; [exact X|exact Z1]. Qed.
  Lemma rewind_same v w d : fixed v -> fixed w -> good img true d -> lv_rewind v d = lv_rewind w d.
  Proof.
    intros (V1 & V2 & V3 & V4 & V5) W Hg. pose proof W as (W1 & W2 & W3 & W4 & W5). unfold lv_rewind.
    destruct (lv_start img nt mp mdata ml bs ty inst size e l0 Hb Hmp Hfr Hm Hml Hbs Hk offs parts Hy Hc Hne (lv_set_ss (lv_set_entries w (Some (lv_initial w))) (ss_new (lv_size w))) d)
      as (d2 & v2 & E & _ & _ & _); auto. { cbn. now rewrite W2. }
    rewrite E. apply (next_attribute_attr _ (lv_attr v)) in E.
    replace (lv_set_ss (lv_set_entries v (Some (lv_initial v))) (ss_new (lv_size v)))
      with (lv_set_attr (lv_set_ss (lv_set_entries w (Some (lv_initial w))) (ss_new (lv_size w))) (lv_attr v)); [now rewrite E|].
    unfold lv_set_attr, lv_set_ss, lv_set_entries. cbn [lv_ntfs lv_initial lv_entries lv_instance lv_ty lv_size lv_attr lv_ss]. now rewrite V1, V2, V3, V4, V5, W1, W2, W3, W4, W5.
  Qed.

  Lemma lv_recover k0 v0 d0 d1 d ops d2 v2 d3 k sf : lv_new nt l0 inst ty size d0 = (d1, Ok v0) -> Forall op_ok ops -> reader_exec (lv_read k0) (lv_seek k0) v0 d ops = (d2, v2) ->
    faultless d3 -> d_img d3 = img -> (length (d_reads d3) + 2 * length (concat parts) + 2 <= k)%nat -> seek_arg_ok sf ->
    let q := seek_target size (lv_stream_position v2) sf in 0 <= q < lv_stream_position v2 ->
    exists d4 v4, lv_seek k v2 sf d3 = (d4, (v4, Ok q)) /\ acts_as (lv_read k) (lv_seek k) v4 d4 (file_content (cluster_size nt) img (concat parts) size) size q.
  Proof.
    intros En Ho Hx Hf Hi Hfu Ha q Hq. assert (Hg : good img true d3) by (split; auto).
    pose proof (lv_new_kept nt ty inst size l0 _ _ _ En) as K0. pose proof (lv_keep nt ty inst size l0 Hsize _ _ _ _ _ _ K0 Ho Hx) as K2.
    destruct (lv_new_ok img nt mp mdata ml bs ty inst size e l0 Hb Hmp Hfr Hm Hml Hbs Hk offs parts Hy Hc Hne d3 Hg) as (_ & w0 & _ & _ & I0 & _).
    pose proof (lv_refines img nt mp mdata ml bs ty inst size e l0 Hb Hmp Hfr Hm Hml Hbs Hk offs parts Hy Hc Hne Hsize k) as R.
    assert (Gf : gdf img nt parts k d3) by (split; auto; rewrite map_length; lia). pose proof K2 as (F2 & Z2 & P2).
    apply (recover (lv_read k) (lv_seek k) linv lv_stream_position _ _ size v2 w0 d3 sf R I0 Gf P2 Ha); auto.
    intros w Iw Pw. destruct (inv_fixed w Iw) as (Fw & Zw). unfold lv_seek. assert (L1 : lv_len v2 = size) by apply F2. assert (L2 : lv_len w = size) by apply Fw. rewrite L1, L2.
    apply (seek_back_same lv_ops fixed size Hsize); auto. now apply rewind_same.
  Qed.

  Lemma lv_recovers f off : bytes_ok (f_data f) -> 0 <= off -> attr_fits (f_data f) off -> off + 56 <= zlen (f_data f) ->
    attr_type_at (f_data f) off = ty -> attr_instance_at (f_data f) off = inst -> field 8 (f_data f) (off + 48) = size ->
    recovers nt (mkAttr f off (Some l0)) img (concat parts) size.
  Proof.
    intros Hfb Hoff Hfit Hlen Ht Hi Hs d d1 v Ev k0 ops d' d2 v2 Ho Hx d3 k sf Hf3 Hi3 Hfu Ha q Hq.
    assert (A2 : attr_nr_data_size (mkAttr f off (Some l0)) = Ok size) by (unfold attr_nr_data_size; rewrite attr_rd_in by lia; now rewrite Hs).
    assert (A3 : attr_instance (mkAttr f off (Some l0)) = Ok inst) by (unfold attr_instance; rewrite attr_rd_in by lia; unfold attr_instance_at in Hi; now rewrite Hi).
    assert (A4 : attr_ty (mkAttr f off (Some l0)) = Ok ty) by (destruct (attr_ty_spec f off (Some l0) Hoff Hfit) as [T _]; rewrite Ht in T; auto).
    unfold attr_value in Ev. cbn [at_entries] in Ev. rewrite A2, A3, A4 in Ev. unfold mbind, mlift, mret in Ev.
    destruct (lv_new nt l0 inst ty size d) as [d5 [v5|y| |]] eqn:En; try discriminate. injection Ev as <- <-.
    assert (Hx2 : exists w, v2 = AVList w /\ reader_exec (lv_read k0) (lv_seek k0) v5 d' ops = (d2, w)).
    { clear - Hx. revert v5 d' Hx. induction ops as [|o ops IH]; intros v d; cbn [reader_exec]; [intros [= <- <-]; eauto|]. unfold reader_step. destruct o as [n|s]; cbn [av_read av_seek].
      - destruct (lv_read k0 v n d) as [d1 [v1 r]]. apply IH.
      - destruct (lv_seek k0 v s d) as [d1 [v1 r]]. apply IH. }
    destruct Hx2 as (w & -> & Hx2). destruct (lv_recover k0 v5 d d5 d' ops d2 w d3 k sf En Ho Hx2 Hf3 Hi3 Hfu Ha Hq) as (d4 & v4 & E4 & H4).
    exists d4, (AVList v4). split; [cbn [av_seek]; rewrite E4; reflexivity|].
    intros ops' Ho'. transitivity (reader_run (lv_read k) (lv_seek k) v4 d4 ops'); [|exact (H4 ops' Ho')]. clear. revert v4 d4. induction ops' as [|o ops' IH]; intros v d; cbn [reader_run]; [reflexivity|].
    unfold reader_step. destruct o as [n|s]; cbn [av_read av_seek].
    - destruct (lv_read k v n d) as [d1 [v1 r]]. now rewrite IH.
    - destruct (lv_seek k v s d) as [d1 [v1 r]]. now rewrite IH.
  Qed.
End Recover.

Lemma resident_list_recovers img nt mp mdata ml bs p e offs k d0 f off parts :
  bytes_ok img -> mft_position nt = Some mp -> 32 <= file_record_size nt <= U16_MAX ->
  mft_at img mp (file_record_size nt) mdata ml -> valid_extents (cluster_size nt) img ml ->
  bytes_ok bs -> zlen bs <= U64_MAX -> position_sane p (zlen bs) -> list_walk bs 0 offs e -> faultless d0 -> d_img d0 = img ->
  bytes_ok (f_data f) -> 0 <= off -> attr_fits (f_data f) off -> off + 56 <= zlen (f_data f) -> type_known (attr_type_at (f_data f) off) ->
  connected img nt ml bs (attr_type_at (f_data f) off) (attr_instance_at (f_data f) off) e (skipn k offs) parts -> parts <> [] ->
  recovers nt (mkAttr f off (Some (fst (iterate_state (with_dev alist_next) k (alist_of_sval (SVRes (res_new bs p)), d0))))) img
    (concat parts) (field 8 (f_data f) (off + 48)).
Proof.
  intros Hb Hmp Hfr Hm Hml Hbs Hl Hp W Hf Hd Hfb Ho Hfit Hlen Hk Hc Hne. pose proof (zlen_nonneg bs).
  assert (E : alist_of_sval (SVRes (res_new bs p)) = ALResident (zdrop 0 bs) (pos_add p 0)).
  { cbn [alist_of_sval res_new rv_data]. rewrite zdrop_0 by lia. f_equal. unfold res_data_position, res_new, res_len. cbn [rv_sp rv_data rv_position].
    replace (0 <=? zlen bs) with true by lia. reflexivity. }
  rewrite E. pose proof (lyields_resident img bs p 0 offs e Hbs Hl Hp W ltac:(lia)) as Y.
  destruct (lyields_after img bs k _ offs _ d0 Y (connected_nonnil _ _ _ _ _ _ _ _ _ _ Hc Hne) (conj Hd (fun _ => Hf))) as [Y2 _].
  eapply (lv_recovers img nt mp mdata ml bs); eauto. now apply field8_bound.
Qed.
Lemma nonresident_list_recovers img nt mp mdata ml l enc p lsize v e offs k d0 f off parts :
  bytes_ok img -> mft_position nt = Some mp -> 32 <= file_record_size nt <= U16_MAX ->
  mft_at img mp (file_record_size nt) mdata ml -> valid_extents (cluster_size nt) img ml ->
  valid_extents (cluster_size nt) img l -> encodes 0 l enc -> 0 <= lsize <= extents_size (cluster_size nt) l -> lsize + U16_MAX <= U64_MAX ->
  nr_new (cluster_size nt) enc p lsize = Ok v ->
  let bs := file_content (cluster_size nt) img l lsize in
  bytes_ok bs -> list_walk bs 0 offs e -> faultless d0 -> d_img d0 = img ->
  bytes_ok (f_data f) -> 0 <= off -> attr_fits (f_data f) off -> off + 56 <= zlen (f_data f) -> type_known (attr_type_at (f_data f) off) ->
  connected img nt ml bs (attr_type_at (f_data f) off) (attr_instance_at (f_data f) off) e (skipn k (with_cut offs e)) parts -> parts <> [] ->
  recovers nt (mkAttr f off (Some (fst (iterate_state (with_dev alist_next) k (alist_of_sval (SVNr v), d0))))) img
    (concat parts) (field 8 (f_data f) (off + 48)).
Proof.
  intros Hb Hmp Hfr Hm Hml Hv He Hls Hmax Hn bs Hbs W Hf Hd Hfb Ho Hfit Hlen Hk Hc Hne.
  assert (Y : lyields img bs (ALNonResident v) (with_cut offs e) (ends_well e)).
  { apply (lyields_nonres (cluster_size nt) img l enc p lsize Hv He Hls Hmax Hbs 0 offs e W ltac:(lia)).
    destruct (nr_extents_new (cluster_size nt) img l enc p lsize Hv He) as (v0 & E0 & I0 & P0 & _). assert (v0 = v) by congruence. subst v0. split; auto. split; auto.
    intros _. eapply (nr_fresh_position (cluster_size nt) img l enc p lsize); eauto; lia. }
  change (alist_of_sval (SVNr v)) with (ALNonResident v).
  destruct (lyields_after img bs k _ _ _ d0 Y (connected_nonnil _ _ _ _ _ _ _ _ _ _ Hc Hne) (conj Hd (fun _ => Hf))) as [Y2 _].
  eapply (lv_recovers img nt mp mdata ml bs); eauto. now apply field8_bound.
Qed.
