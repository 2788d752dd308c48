(** * Proofs for C65: no panics on tame volumes, whatever else they hold. *)
From Coq Require Import Lia.
From Verif Require Import Base Dev Types Record DataRuns Stream NonResident Resident BootSector Attribute File Structured AttrList Upcase Guid Volume Spec SpecMisc SpecTotal SpecPanic
  BaseProofs MiscProofs AttrListProofs UpcaseProofs DataRunsProofs DevProofs StreamProofs NonResidentProofs RecordProofs AttributeProofs FileProofs BootSectorProofs EvolveProofs IndexRecordProofs TerminationProofs ReadLenProofs ListTotalProofs ShellTotalProofs.

(** ** Results that are no panic *)
Definition np {A} (Q : A -> Prop) (x : res A) : Prop := match x with Ok a => Q a | Panic => False | _ => True end.
Lemma np_bind {A B} (P : A -> Prop) (Q : B -> Prop) (x : res A) (f : A -> res B) : np P x -> (forall a, x = Ok a -> P a -> np Q (f a)) -> np Q (rbind x f).
Proof. destruct x; cbn; auto. Qed.
Lemma np_weak {A} (P Q : A -> Prop) (x : res A) : np P x -> (forall a, P a -> Q a) -> np Q x.
Proof. destruct x; cbn; auto. Qed.
Lemma np_returns {A} (x : res A) : returns x -> np (fun _ => True) x.
Proof. destruct x; cbn; auto. Qed.
Lemma np_not {A} (Q : A -> Prop) (x : res A) : np Q x -> x <> Panic.
Proof. destruct x; cbn; try tauto; discriminate. Qed.
Lemma np_fine {A} (x : res A) : fine true x -> np (fun _ => True) x.
Proof. destruct x; cbn; auto; discriminate. Qed.
Lemma np_ok {A} (Q : A -> Prop) (x : res A) : x <> Panic -> (forall a, x = Ok a -> Q a) -> np Q x.
Proof. destruct x; cbn; auto. Qed.

Definition npm {A} (img : list Z) (Q : A -> Prop) (m : M A) : Prop := forall d, d_img d = img -> d_img (fst (m d)) = img /\ np Q (snd (m d)).
Lemma npm_bind {A B} img (P : A -> Prop) (Q : B -> Prop) (m : M A) (f : A -> M B) : npm img P m -> (forall a, P a -> npm img Q (f a)) -> npm img Q (mbind m f).
Proof.
  intros Hm Hf d Hd. unfold mbind. destruct (Hm d Hd) as (H1 & H2). destruct (m d) as [d1 x]. cbn [fst snd] in *. destruct x as [a|e| |]; cbn in H2 |- *; auto.
  apply Hf; auto.
Qed.
Lemma npm_lift {A} img (Q : A -> Prop) (x : res A) : np Q x -> npm img Q (mlift x).
Proof. intros H d Hd. split; auto. Qed.
Lemma npm_try {A B} img (P : A -> Prop) (Q : B -> Prop) (x : res A) (f : A -> M B) : np P x -> (forall a, x = Ok a -> P a -> npm img Q (f a)) -> npm img Q (mbind (mlift x) f).
Proof. intros Hx Hf d Hd. unfold mbind, mlift. destruct x as [a|e| |]; cbn in *; auto. apply Hf; auto. Qed.
Lemma npm_weak {A} img (P Q : A -> Prop) (m : M A) : npm img P m -> (forall a, P a -> Q a) -> npm img Q m.
Proof. intros H HPQ d Hd. destruct (H d Hd) as (H1 & H2). split; auto. exact (np_weak _ _ _ H2 HPQ). Qed.

Definition nrm {S A} (img : list Z) (I : S -> Prop) (Q : A -> Prop) (m : RM S A) : Prop := forall s d, I s -> d_img d = img ->
  let '(d', (s', x)) := m s d in d_img d' = img /\ I s' /\ np Q x.
Definition nreads {S} (img : list Z) (I : S -> Prop) (read : S -> Z -> dev -> dev * (S * res (list Z))) : Prop :=
  forall s n d, I s -> d_img d = img -> 0 <= n -> let '(d', (s', x)) := read s n d in d_img d' = img /\ I s' /\ np (fun bs => bytes_ok bs /\ zlen bs <= n) x.
Lemma nrm_ret {S A} img (I : S -> Prop) (Q : A -> Prop) a : Q a -> nrm img I Q (rm_ret a).
Proof. intros H s d Hs Hd. cbn. auto. Qed.
Lemma nrm_err {S A} img (I : S -> Prop) (Q : A -> Prop) e : nrm img I Q (@rm_err S A e).
Proof. intros s d Hs Hd. cbn. auto. Qed.
Lemma nrm_bind {S A B} img (I : S -> Prop) (Q : A -> Prop) (R : B -> Prop) (m : RM S A) (f : A -> RM S B) :
  nrm img I Q m -> (forall a, Q a -> nrm img I R (f a)) -> nrm img I R (rm_bind m f).
Proof.
  intros Hm Hf s d Hs Hd. unfold rm_bind. pose proof (Hm s d Hs Hd) as H. destruct (m s d) as [d1 [s1 x]]. destruct H as (H1 & H2 & H3).
  destruct x as [a|e| |]; cbn in H3; try (splits; auto; fail). apply Hf; auto.
Qed.
Lemma nrm_weak {S A} img (I : S -> Prop) (Q R : A -> Prop) m : nrm img I Q m -> (forall a, Q a -> R a) -> nrm img I R m.
Proof. intros H HR s d Hs Hd. specialize (H s d Hs Hd). destruct (m s d) as [d1 [s1 x]]. destruct H as (H1 & H2 & H3). splits; auto. exact (np_weak _ _ _ H3 HR). Qed.

Section Exact.
  Context {S : Type} (img : list Z) (I : S -> Prop) (read : S -> Z -> dev -> dev * (S * res (list Z))) (Hr : nreads img I read).
  Lemma nreads_attached : nreads img I (attached read).
  Proof.
    intros s n d Hs Hd Hn. unfold attached. pose proof (Hr s n d Hs Hd Hn) as H. destruct (read s n d) as [d1 [s1 x]]. destruct H as (H1 & H2 & H3).
    destruct x; splits; auto.
  Qed.
  Lemma read_exact_loop_np g : forall s n acc d, I s -> d_img d = img -> bytes_ok acc -> 0 <= n ->
    let '(d', (s', x)) := rs_read_exact_loop read g s n acc d in d_img d' = img /\ I s' /\ np (fun bs => bytes_ok bs /\ zlen bs = zlen acc + n) x.
  Proof.
    induction g as [|g IH]; intros s n acc d Hs Hd Ha Hn; cbn [rs_read_exact_loop]; (destruct (n <=? 0) eqn:En; [splits; auto; cbn; split; auto; lia|]).
    { splits; auto. exact Logic.I. }
    pose proof (Hr s n d Hs Hd Hn) as H. destruct (read s n d) as [d1 [s1 x]]. destruct H as (H1 & H2 & H3).
    destruct x as [bs|e| |]; try (splits; auto; fail).
    - cbn in H3. destruct H3 as (H3 & H4). destruct bs as [|b t]; [splits; auto; exact Logic.I|]. set (bs := b :: t) in *.
      assert (Hacc : bytes_ok (acc ++ bs)) by (rewrite bytes_ok_app; auto).
      pose proof (IH s1 (n - zlen bs) (acc ++ bs) d1 H2 H1 Hacc ltac:(lia)) as K.
      destruct (rs_read_exact_loop read g s1 (n - zlen bs) (acc ++ bs) d1) as [d2 [s2 y]]. destruct K as (K1 & K2 & K3). splits; auto.
      apply (np_weak _ _ _ K3). intros a (A1 & A2). split; auto. rewrite zlen_app in A2. lia.
    - assert (Hk : e = EIo Interrupted \/ e <> EIo Interrupted) by (destruct e; try (right; discriminate); destruct k; try (right; discriminate); now left).
      destruct Hk as [->|Hk]; [apply IH; auto|]. destruct e; try (splits; auto; fail). destruct k; try (splits; auto; fail). congruence.
  Qed.
  Lemma read_exact_np n : 0 <= n -> nrm img I (fun bs => bytes_ok bs /\ zlen bs = n) (fun s d => rs_read_exact read s n d).
  Proof. intros Hn s d Hs Hd. unfold rs_read_exact. apply (read_exact_loop_np _ s n [] d Hs Hd (Forall_nil _) Hn). Qed.
End Exact.
Lemma attached_exact_np {S} img (I : S -> Prop) read n : nreads img I read -> 0 <= n -> nrm img I (fun bs => bytes_ok bs /\ zlen bs = n) (attached_exact read n).
Proof. intros Hr Hn. unfold attached_exact. apply (read_exact_np img I (attached read)); auto. now apply nreads_attached. Qed.

(** ** Readers without attribute lists *)
Lemma nr_nreads img : bytes_ok img -> nreads img (nr_sane true) nr_read.
Proof.
  intros Hi v n d Hv Hd Hn. pose proof (nr_read_evolves v n d) as (Ev & _). destruct (nr_read v n d) as [d1 [v1 x]] eqn:E. cbn [fst] in Ev.
  destruct (nr_read_sane true _ _ _ _ _ _ Hv E) as (H1 & H2 & H3 & H4). splits; auto; [congruence|]. destruct x as [bs|e| |]; cbn in *; auto; [|discriminate].
  assert (Hdv : dev_ok d) by (unfold dev_ok; congruence). split; [|specialize (H4 bs eq_refl); lia].
  unfold nr_read in E. exact (stream_read_bytes nr_ops ltac:(intros; apply evolves_refl) _ _ _ _ _ _ _ _ Hdv (Forall_nil _) E).
Qed.
Definition res_calm (r : resv) : Prop := bytes_ok (rv_data r) /\ 0 <= rv_sp r.
Lemma res_nreads img : nreads img res_calm res_read.
Proof.
  intros v n d (Hv & Hp) Hd Hn. unfold res_read, res_len. cbv zeta. destruct (_ =? 0) eqn:E0.
  { splits; auto; [split; auto|]. split; [constructor|]. change (zlen (@nil Z)) with 0. lia. }
  unfold idx_range. rewrite get_range_in by lia. splits; auto; [split; cbn; auto; lia|]. cbn. split; [now apply bytes_ok_slice|]. unfold slice. rewrite zlen_ztake, zlen_zdrop. lia.
Qed.
Definition sval_calm (v : sval) : Prop := match v with SVRes r => res_calm r | SVNr v => nr_sane true v end.
Lemma sv_nreads img : bytes_ok img -> nreads img sval_calm sv_read.
Proof.
  intros Hi v n d Hv Hd Hn. destruct v as [r|r]; cbn [sv_read].
  - pose proof (res_nreads img r n d Hv Hd Hn) as H. destruct (res_read r n d) as [d1 [r1 x]]. exact H.
  - pose proof (nr_nreads img Hi r n d Hv Hd Hn) as H. destruct (nr_read r n d) as [d1 [r1 x]]. exact H.
Qed.
Lemma res_seek_np r sf d : res_calm r -> seek_arg_ok sf -> let '(d', (r', x)) := res_seek r sf d in d' = d /\ res_calm r' /\ np (fun _ => True) x.
Proof.
  intros (Hr & Hp) Ha. unfold res_seek. pose proof (zlen_nonneg (rv_data r)) as Hz. destruct (seek_contiguous (rv_sp r) (res_len r) sf) as [q x] eqn:E.
  assert (H : 0 <= q /\ np (fun _ => True) x).
  { unfold seek_contiguous in E. unfold res_len in E. destruct sf as [n|n|n]; cbn in Ha; [injection E as <- <-; split; [lia|exact Logic.I]| |]; cbv zeta in E;
    unfold checked_add64, checked_sub64 in E; destruct (0 <=? n) eqn:En.
    all: repeat match type of E with context [if ?c then _ else _] => destruct c eqn:? end; injection E as <- <-; split; try exact Logic.I; lia. }
  destruct H. splits; auto. split; auto.
Qed.
Lemma sv_seek_np v sf d : sval_calm v -> seek_arg_ok sf -> let '(d', (v', x)) := sv_seek v sf d in d' = d /\ sval_calm v' /\ np (fun _ => True) x.
Proof.
  intros Hv Ha. destruct v as [r|r]; cbn [sv_seek].
  - pose proof (res_seek_np r sf d Hv Ha) as H. destruct (res_seek r sf d) as [d1 [r1 x]]. exact H.
  - destruct (nr_seek r sf d) as [d1 [r1 x]] eqn:E. destruct (nr_seek_sane true _ _ _ _ _ _ Hv Ha E) as (H1 & H2 & H3). splits; auto. now apply np_fine.
Qed.

(** ** Structured values *)
Definition new_np {S A} (img : list Z) (I : S -> Prop) (Q : A -> Prop) (new : (Z -> RM S (list Z)) -> position -> Z -> RM S A) : Prop :=
  forall rx, (forall n, 0 <= n -> nrm img I (fun bs => bytes_ok bs /\ zlen bs = n) (rx n)) -> forall p n, 0 <= n -> nrm img I Q (new rx p n).
Lemma fn_new_np {S} img (I : S -> Prop) : new_np img I (fun fn => fn_raw_namespace fn <= 3 /\ bytes_ok (fn_name fn)) (@fn_new S).
Proof.
  intros rx Hrx p n Hn. unfold fn_new. destruct (n <? 68); [apply nrm_err|]. eapply nrm_bind; [apply Hrx; lia|]. intros h (Hh & _). cbv zeta.
  destruct (n <? _); [apply nrm_err|]. destruct (3 <? _) eqn:E3; [apply nrm_err|]. pose proof (field1_bound h 64 Hh).
  eapply nrm_bind; [apply Hrx; lia|]. intros nm (Hnm & _). apply nrm_ret. cbn. split; [lia|exact Hnm].
Qed.
Definition times_ok (v : std_info) : Prop :=
  0 <= si_access_time v <= U64_MAX /\ 0 <= si_creation_time v <= U64_MAX /\ 0 <= si_modification_time v <= U64_MAX /\ 0 <= si_mft_record_modification_time v <= U64_MAX.
Lemma si_new_np {S} img (I : S -> Prop) : new_np img I times_ok (@si_new S).
Proof.
  intros rx Hrx p n Hn. unfold si_new. destruct (n <? 48); [apply nrm_err|]. eapply nrm_bind; [apply Hrx; lia|]. intros h (Hh & _).
  assert (K : forall x, times_ok (si1_of_bytes h x)) by (intros x; unfold times_ok; cbn; splits; apply field8_bound; auto).
  destruct (72 <=? n); [|apply nrm_ret; apply K]. eapply nrm_bind; [apply Hrx; lia|]. intros nm Hnm. apply nrm_ret. apply K.
Qed.
Lemma vi_new_np {S} img (I : S -> Prop) : new_np img I (fun _ => True) (@vi_new S).
Proof. intros rx Hrx p n Hn. unfold vi_new. destruct (n <? 12); [apply nrm_err|]. eapply nrm_bind; [apply Hrx; lia|]. intros nm Hnm. apply nrm_ret. exact Logic.I. Qed.
Lemma vn_new_np {S} img (I : S -> Prop) : new_np img I (fun _ => True) (@vn_new S).
Proof. intros rx Hrx p n Hn. unfold vn_new. destruct (256 <? n); [apply nrm_err|]. eapply nrm_weak; [apply Hrx; lia|]. auto. Qed.
Lemma oi_new_np {S} img (I : S -> Prop) : new_np img I (fun _ => True) (@oi_new S).
Proof.
  intros rx Hrx p n Hn. unfold oi_new. destruct (n <? 16); [apply nrm_err|].
  assert (H : forall b : bool, nrm img I (fun _ => True) (if b then rdo x <- rx 16; rm_ret (Some (guid_of_bytes x)) else rm_ret None)).
  { intros []; [|apply nrm_ret; exact Logic.I]. eapply nrm_bind; [apply Hrx; lia|]. intros x Hx. apply nrm_ret. exact Logic.I. }
  eapply nrm_bind; [apply Hrx; lia|]. intros b0 H0. eapply nrm_bind; [apply H|]. intros b1 _. eapply nrm_bind; [apply H|]. intros b2 _. eapply nrm_bind; [apply H|]. intros b3 _.
  apply nrm_ret. exact Logic.I.
Qed.
Lemma le_new_np {S} img (I : S -> Prop) (rx : Z -> RM S (list Z)) p :
  (forall n, 0 <= n -> nrm img I (fun bs => bytes_ok bs /\ zlen bs = n) (rx n)) -> nrm img I entry_ok (le_new rx p).
Proof.
  intros Hr. unfold le_new. eapply nrm_bind; [apply Hr; lia|]. intros h (Hh & _). pose proof (field1_bound h 6 Hh). pose proof (field2_bound h 4 Hh). cbv zeta.
  destruct (_ <? _) eqn:E; [apply nrm_err|]. eapply nrm_bind; [apply Hr; lia|]. intros name _. apply nrm_ret.
  split; cbn [le_length le_of_header]; [lia|]. unfold le_number. cbn [le_ref le_of_header]. apply fr_number_nonneg. now apply bytes_ok_slice.
Qed.
Lemma cursor_np img n : 0 <= n -> nrm img res_calm (fun bs => bytes_ok bs /\ zlen bs = n) (cursor_exact n).
Proof. intros Hn. unfold cursor_exact. apply (read_exact_np img res_calm res_read); auto. apply res_nreads. Qed.
Lemma from_resident_np {A} (Q : A -> Prop) (new : (Z -> RM resv (list Z)) -> position -> Z -> RM resv A) v : (forall img, new_np img res_calm Q new) -> res_calm v -> np Q (from_resident new v).
Proof.
  intros Hnew (Hv & _). unfold from_resident, from_slice.
  pose proof (Hnew (d_img no_dev) cursor_exact (cursor_np _) (res_data_position v) (zlen (rv_data v)) (zlen_nonneg _) (res_new (rv_data v) (res_data_position v)) no_dev) as H.
  cbv zeta in H. destruct (new cursor_exact _ _ _ no_dev) as [d1 [s1 y]]. destruct H as (_ & _ & H); auto. split; cbn; auto. lia.
Qed.

(** The position of the mapping pairs only appears in errors. *)
Lemma druns_next_pos cs data p q s : fst (druns_next cs data p s) = fst (druns_next cs data q s) /\
  forall r, snd (druns_next cs data p s) = Some (Ok r) -> snd (druns_next cs data q s) = Some (Ok r).
Proof.
  unfold druns_next, read_variable_length. cbv zeta. destruct (zdrop _ data) as [|h rest]; [split; auto; discriminate|].
  repeat match goal with |- context [if ?c then _ else _] => destruct c; cbn [fst snd]; try (split; auto; discriminate) end.
  all: destruct (checked_mul64 _ cs); cbn [fst snd]; try (split; auto; discriminate).
  all: repeat match goal with |- context [if ?c then _ else _] => destruct c; cbn [fst snd]; try (split; auto; discriminate) end.
  all: destruct (lcn_checked_add _ _); cbn [fst snd]; try (split; auto; discriminate).
  all: unfold lcn_position; destruct (checked_mul64 _ cs); cbn [fst snd]; split; auto; discriminate.
Qed.
Lemma runs_below_pos cs data p q s : runs_below cs data p s -> runs_below cs data q s.
Proof.
  intros H n r. revert s H. induction n as [|n IH]; intros s H; cbn [iterate]; [intros []|].
  pose proof (druns_next_pos cs data p q s) as (D1 & _). pose proof (druns_next_pos cs data q p s) as (_ & D2).
  destruct (druns_next cs data q s) as [s2 x2] eqn:E2. destruct (druns_next cs data p s) as [s1 x1] eqn:E1. cbn [fst snd] in *. subst s2.
  intros [->|Hin]. { specialize (D2 r eq_refl). subst x1. apply (H 1%nat r). cbn [iterate]. rewrite E1. now left. }
  exact (IH s1 (runs_below_next _ _ _ _ _ _ H E1) Hin).
Qed.

(** ** Records and their attributes *)
Definition room (cs : Z) (data : list Z) (o : Z) : Prop := has_room data o /\
  (~ attr_resident_at data o -> runs_in_range cs (slice data (o + field 2 data (o + 32)) (o + attr_len_at data o))) /\ root_ordered data o.
Record gattr (cs : Z) (a : attribute) : Prop := {
  ga_bytes : bytes_ok (f_data (at_file a)); ga_off : 0 <= at_offset a; ga_fits : attr_fits (f_data (at_file a)) (at_offset a); ga_room : room cs (f_data (at_file a)) (at_offset a) }.

Lemma runs_in_range_below cs data : runs_in_range cs data -> forall p, runs_below cs data p druns_start.
Proof. intros H p. apply (runs_below_pos _ _ None). intros n r Hin q Hq. exact (H n r q Hin Hq). Qed.
Lemma gattr_basic cs a : gattr cs a -> np (fun _ => True) (attr_ty a) /\ np (fun _ => True) (attr_name a) /\ attr_length a = Ok (attr_len_at (f_data (at_file a)) (at_offset a)) /\
  attr_instance a = Ok (attr_instance_at (f_data (at_file a)) (at_offset a)) /\ np (fun _ => True) (attr_flags a) /\
  exists b, attr_is_resident a = Ok b /\ (b = true <-> attr_resident_at (f_data (at_file a)) (at_offset a)).
Proof.
  intros [H1 H2 H3 H4]. destruct a as [f o e]. cbn [at_file at_offset] in *. destruct (attr_basic_returns f H1 o e H2 H3) as (A1 & A2 & A3 & (x & A4) & A5 & A6 & A7 & A8).
  splits; auto using np_returns. now rewrite A4.
Qed.
Lemma gattr_matches cs a ty n i : gattr cs a -> np (fun _ => True) (attr_matches a ty n i).
Proof.
  intros H. destruct (gattr_basic cs a H) as (H1 & H2 & H3 & H4 & H5 & _). unfold attr_matches. apply (np_bind (fun _ => True)); auto. intros t _ _.
  destruct (negb _); [exact Logic.I|]. apply (np_bind (fun _ => True)). { destruct i; [rewrite H4|]; exact Logic.I. }
  intros b _ _. destruct (negb b); [exact Logic.I|]. destruct n; [|exact Logic.I]. apply (np_bind (fun _ => True)); auto.
Qed.
Lemma gattr_ensure cs a ty : gattr cs a -> np (fun _ => True) (attr_ensure_ty a ty).
Proof. intros H. destruct (gattr_basic cs a H) as (H1 & _). unfold attr_ensure_ty. apply (np_bind (fun _ => True)); auto. intros t _ _. destruct (_ =? _); exact Logic.I. Qed.
Lemma gattr_22 cs a : gattr cs a -> at_offset a + 22 <= zlen (f_data (at_file a)).
Proof. intros [_ _ _ ([H|(_ & H)] & _)]; lia. Qed.
Lemma gattr_56 cs a : gattr cs a -> ~ attr_resident_at (f_data (at_file a)) (at_offset a) -> at_offset a + 56 <= zlen (f_data (at_file a)).
Proof. intros [_ _ _ ([H|(K & H)] & _)] Hn; [lia|tauto]. Qed.
Lemma gattr_resident_value cs a : gattr cs a -> np res_calm (attr_resident_value a).
Proof.
  intros H. pose proof (gattr_22 cs a H) as H22. destruct H as [H1 H2 H3 H4]. destruct a as [f o e]. cbn [at_file at_offset] in *.
  destruct (attr_resident_value_spec f H1 o e H2 H3 ltac:(lia)) as [(bs & E & Hv)|(x & E & _)]; rewrite E; cbn; auto.
  destruct Hv as (_ & ->). split; cbn; [now apply bytes_ok_slice|lia].
Qed.
Lemma gattr_runs cs a : gattr cs a -> ~ attr_resident_at (f_data (at_file a)) (at_offset a) ->
  np (fun dp => bytes_ok (fst dp) /\ forall p, runs_below cs (fst dp) p druns_start) (attr_nr_data_and_position a).
Proof.
  intros H Hn. pose proof (gattr_56 cs a H Hn) as H56. pose proof (gattr_basic cs a H) as (_ & _ & Hl & _). destruct H as [H1 H2 H3 (H4 & H5 & _)].
  unfold attr_nr_data_and_position, attr_nr_runs_offset, attr_rd. rewrite rd_in by lia. cbn [rbind]. rewrite Hl. cbn [rbind]. cbv zeta.
  unfold get_range. destruct (_ && _); [|exact Logic.I]. cbn [np fst]. split; [now apply bytes_ok_slice|]. intros p. apply runs_in_range_below. exact (H5 Hn).
Qed.
Lemma gattr_size cs a : gattr cs a -> ~ attr_resident_at (f_data (at_file a)) (at_offset a) -> np (fun s => 0 <= s <= U64_MAX) (attr_nr_data_size a).
Proof.
  intros H Hn. pose proof (gattr_56 cs a H Hn) as H56. destruct H as [H1 H2 H3 _]. unfold attr_nr_data_size, attr_rd.
  destruct (rd 8 _ _) as [x|e| |] eqn:E; cbn; auto; [|rewrite rd_in in E by lia; discriminate]. apply (rd_bound 8 _ _ _ H1 ltac:(lia)) in E. unfold U64_MAX. lia.
Qed.
Lemma gattr_length cs a : gattr cs a -> np (fun _ => True) (attr_value_length a).
Proof.
  intros H. destruct (gattr_basic cs a H) as (_ & _ & _ & _ & _ & b & E & Hb). unfold attr_value_length. rewrite E. cbn [rbind]. destruct b.
  - pose proof (gattr_22 cs a H). destruct H. unfold attr_resident_value_length, attr_rd. rewrite rd_in by lia. exact Logic.I.
  - apply (np_weak (fun s => 0 <= s <= U64_MAX)); auto. apply (gattr_size cs); auto. intros K. apply Hb in K. discriminate.
Qed.
Lemma gattr_value cs a : 1 <= cs -> gattr cs a -> np sval_calm (attr_value_simple cs a).
Proof.
  intros Hcs H. destruct (gattr_basic cs a H) as (_ & _ & _ & _ & _ & b & E & Hb). unfold attr_value_simple. rewrite E. cbn [rbind]. destruct b.
  - apply (np_bind res_calm); [apply (gattr_resident_value cs); auto|]. intros r _ Hr. exact Hr.
  - assert (Hn : ~ attr_resident_at (f_data (at_file a)) (at_offset a)) by (intros K; apply Hb in K; discriminate).
    apply (np_bind (nr_sane true)); [|intros v _ Hv; exact Hv]. unfold attr_nr_value.
    apply (np_bind _ _ _ _ (gattr_runs cs a H Hn)). intros (data, p) _ (D1 & D2). cbn [fst snd] in *.
    apply (np_bind _ _ _ _ (gattr_size cs a H Hn)). intros size _ Hs.
    pose proof (nr_new_sane true cs data p size Hcs D1 Hs (fun _ => D2 p)) as K. destruct (nr_new cs data p size); cbn in *; auto. discriminate.
Qed.
Lemma gattr_resident_structured cs a ty : gattr cs a -> np res_calm (attr_resident_structured a ty).
Proof.
  intros H. unfold attr_resident_structured. apply (np_bind _ _ _ _ (gattr_ensure cs a ty H)). intros _ _ _.
  destruct (gattr_basic cs a H) as (_ & _ & _ & _ & _ & b & E & Hb). rewrite E. cbn [rbind]. destruct b; [|exact Logic.I]. exact (gattr_resident_value cs a H).
Qed.

(** The iteration over the attributes of a record. *)
Definition walks (cs : Z) (data : list Z) (s : Z) : Prop := 0 <= s /\ exists offs clean, attr_walk data s offs clean /\ Forall (room cs data) offs.
Definition gfile (cs : Z) (f : file) : Prop := bytes_ok (f_data f) /\ 32 <= zlen (f_data f) /\ tame cs (f_data f).
Lemma gfile_walks cs f : gfile cs f -> walks cs (f_data f) (field 2 (f_data f) 20).
Proof.
  intros (H1 & H2 & H3). pose proof (field2_bound (f_data f) 20 H1) as Hs. split; [lia|]. destruct (walk_total f (field 2 (f_data f) 20) ltac:(lia)) as (offs & clean & W).
  exists offs, clean. split; auto. apply Forall_forall. intros o Ho. exact (H3 offs clean o W Ho).
Qed.
Lemma attr_new_np f o e : 0 <= o -> np (fun a => a = mkAttr f o e /\ attr_fits (f_data f) o) (attr_new f o e).
Proof.
  intros Ho. destruct (attr_new_spec f o e Ho) as (H1 & H2).
  assert (Hd : attr_fits (f_data f) o \/ ~ attr_fits (f_data f) o) by (unfold attr_fits; lia).
  destruct Hd as [Hf|Hf]; [rewrite (H1 Hf); cbn; auto|]. destruct (H2 Hf) as (x & E). rewrite E. exact Logic.I.
Qed.
Lemma raw_next_np cs f s : bytes_ok (f_data f) -> walks cs (f_data f) s -> let '(s', x) := raw_next f s in
  walks cs (f_data f) s' /\ match x with None => True | Some r => np (fun a => a = mkAttr f s None /\ gattr cs a) r end.
Proof.
  intros Hb Hw. pose proof Hw as (Hs & offs & clean & W & R). unfold raw_next.
  destruct (get_range (f_data f) s (s + 4)) as [t|] eqn:Eg; [|split; auto].
  assert (H4 : s + 4 <= zlen (f_data f) /\ t = slice (f_data f) s (s + 4)). { unfold get_range in Eg. destruct (_ && _) eqn:E; [|discriminate]. injection Eg as <-. split; [lia|reflexivity]. }
  destruct H4 as (H4 & ->). destruct (le_val _ =? TY_End) eqn:Et; [split; auto|].
  pose proof (attr_new_np f s None Hs) as Hn. destruct (attr_new f s None) as [a|x| |]; cbn in Hn; try (split; auto; fail).
  destruct Hn as (-> & Hf). destruct (attr_basic_returns f Hb s None Hs Hf) as (El & _). rewrite El. inversion W; subst; try lia.
  - exfalso. unfold end_marker, field, TY_End in *. lia.
  - tauto.
  - inversion R as [|? ? R1 R2]; subst. destruct Hf as (F1 & F2 & F3). split; [split; [lia|eauto]|]. cbn. split; auto. split; cbn; auto.
Qed.
Lemma find_resident_loop_np cs fuel : forall f ty n i s, bytes_ok (f_data f) -> walks cs (f_data f) s ->
  np (fun a => at_file a = f /\ at_entries a = None /\ gattr cs a) (find_resident_loop fuel f ty n i s).
Proof.
  induction fuel as [|k IH]; intros f ty n i s Hb Hw; [exact Logic.I|]. cbn [find_resident_loop]. pose proof (raw_next_np cs f s Hb Hw) as H.
  destruct (raw_next f s) as [s' [r|]]; [|exact Logic.I]. destruct H as (H1 & H2). apply (np_bind _ _ _ _ H2). intros a _ (-> & Ga).
  apply (np_bind _ _ _ _ (gattr_matches cs _ ty n i Ga)). intros [] _ _; [cbn; auto|]. apply IH; auto.
Qed.
Lemma raw_start_np cs f : gfile cs f -> np (walks cs (f_data f)) (raw_start f).
Proof. intros H. unfold raw_start, f_first_attribute_offset, rd_u16. rewrite rd_in by (destruct H; lia). cbn. change (2) with 2. exact (gfile_walks cs f H). Qed.
Lemma find_resident_np cs f ty n i : gfile cs f -> np (fun a => at_file a = f /\ at_entries a = None /\ gattr cs a) (find_resident_attribute f ty n i).
Proof.
  intros H. unfold find_resident_attribute. apply (np_bind _ _ _ _ (raw_start_np cs f H)). intros s _ Hs. apply find_resident_loop_np; auto. apply H.
Qed.

(** ** Reading records *)
Lemma file_of_bytes_np data p n : bytes_ok data -> 32 <= zlen data <= U16_MAX ->
  np (fun f => bytes_ok (f_data f) /\ zlen (f_data f) = zlen data /\ f_number f = n) (file_of_bytes data p n).
Proof.
  intros Hb Hl. pose proof (file_of_bytes_returns data p n Hb Hl) as Hr. destruct (file_of_bytes_calm data p n Hb) as (_ & Hc).
  destruct (file_of_bytes data p n) as [f|e| |] eqn:E; cbn in *; auto. splits; auto.
  all: unfold file_of_bytes in E; cbv zeta in E; destruct (file_validate_signature _); cbn [rbind] in E; try discriminate;
    destruct (fixup_spec data p Hb ltac:(lia)) as (data' & out & Ef & Hz & _); rewrite Ef in E; destruct out; try discriminate;
    destruct (file_validate_sizes _); cbn [rbind] in E; try discriminate; injection E as <-; cbn; auto.
Qed.
Lemma dev_read_exact_np img n : bytes_ok img -> 0 <= n -> forall d, d_img d = img -> 0 <= d_pos d ->
  d_img (fst (dev_read_exact n d)) = img /\ np (fun bs => bytes_ok bs /\ zlen bs = n) (snd (dev_read_exact n d)).
Proof.
  intros Hb Hn d Hd Hp. pose proof (dev_read_exact_evolves n d) as (Ev & _). split; [congruence|]. destruct (dev_read_exact_fuel n d Hp) as (F1 & F2).
  destruct (dev_read_exact_loop_calm (length (d_reads d) + 2) n [] d ltac:(now rewrite Hd) (Forall_nil _)) as (_ & C2). fold (dev_read_exact n d) in C2.
  pose proof (dev_read_exact_loop_len (length (d_reads d) + 2) n [] d) as L. fold (dev_read_exact n d) in L.
  destruct (dev_read_exact n d) as [d1 x]. cbn [fst snd] in *. apply np_ok; auto. intros bs ->. split; auto. specialize (L d1 bs Hn eq_refl). change (zlen (@nil Z)) with 0 in L. lia.
Qed.
Lemma file_new_np img nt p n : bytes_ok img -> 32 <= file_record_size nt <= U16_MAX -> 0 <= p ->
  npm img (fun f => bytes_ok (f_data f) /\ zlen (f_data f) = file_record_size nt /\ f_number f = n) (file_new nt p n).
Proof.
  intros Hb Hfr Hp d Hd. unfold file_new, mbind. pose proof (dev_seek_evolves p d) as (Ev1 & _). destruct (dev_seek p d) as [d1 y] eqn:E1. cbn [fst] in Ev1.
  assert (Hs : y = Ok tt /\ d_pos d1 = p \/ exists e, y = Err (EIo e)).
  { unfold dev_seek in E1. destruct (d_seeks d) as [|[e|] t]; injection E1 as <- <-; cbn; [left|right|left]; eauto. }
  destruct Hs as [(-> & P1)|(e & ->)]; [|split; [cbn; congruence|exact Logic.I]].
  destruct (dev_read_exact_np img (file_record_size nt) Hb ltac:(lia) d1 ltac:(congruence) ltac:(lia)) as (R1 & R2).
  destruct (dev_read_exact (file_record_size nt) d1) as [d2 z]. cbn [fst snd] in *. destruct z as [data|e| |]; cbn in R2; try (split; auto; fail).
  destruct R2 as (R2 & R3). split; [exact R1|]. cbn [snd mlift]. rewrite <- R3. apply file_of_bytes_np; auto. lia.
Qed.

Section Vol.
  Context (nt : ntfs) (img : list Z).
  Notation cs := (cluster_size nt).
  Record usable : Prop := { us_cs : 1 <= cs; us_frs : 32 <= file_record_size nt <= U16_MAX; us_mft : exists mp, mft_position nt = Some mp /\ 0 <= mp; us_tame : tame_volume nt img }.
  Context (U : usable).
  Let Hb : bytes_ok img := proj1 (us_tame U).
  Let T : forall f, seen nt img f -> tame cs (f_data f) := proj2 (proj2 (us_tame U)).

  Lemma ntfs_file_np n : 0 <= n -> npm img (fun f => gfile cs f /\ f_number f = n) (ntfs_file nt n).
  Proof.
    intros Hn d Hd. pose proof (ntfs_file_evolves nt n d) as (Ev & _). split; [congruence|].
    assert (Hseen : forall f, snd (ntfs_file nt n d) = Ok f -> seen nt img f). { intros f E. right. exists n, d, (fst (ntfs_file nt n d)). splits; auto. rewrite <- E. now destruct (ntfs_file nt n d). }
    destruct (us_mft U) as (mp & Emp & Hmp). pose proof (us_frs U) as Hfr. revert Hseen. unfold ntfs_file. unfold checked_mul64. destruct (_ <=? U64_MAX) eqn:Eo; [|intros; exact Logic.I].
    rewrite Emp. unfold mbind. destruct (file_new_np img nt mp 0 Hb Hfr Hmp d Hd) as (F1 & F2). destruct (file_new nt mp 0 d) as [d1 x1] eqn:E1. cbn [fst snd] in F1, F2.
    destruct x1 as [mft|e| |]; cbn in F2; try (intros; exact F2). destruct F2 as (F2 & F3 & F4).
    assert (Gm : gfile cs mft). { split; auto. split; [lia|]. apply T. left. exists mp, d, d1. auto. }
    unfold mlift. pose proof (find_resident_np cs mft TY_Data None None Gm) as A. destruct (find_resident_attribute mft TY_Data None None) as [a|e| |]; cbn in A; try (intros; exact A).
    destruct A as (A1 & A2 & A3). pose proof (gattr_value cs a (us_cs U) A3) as V. destruct (attr_value_simple cs a) as [v|e| |]; cbn in V; try (intros; exact V).
    pose proof (sv_seek_np v (SStart (n * file_record_size nt)) d1 V ltac:(split; [apply Z.mul_nonneg_nonneg; lia|lia])) as S.
    destruct (sv_seek v (SStart (n * file_record_size nt)) d1) as [d2 [v2 y]]. destruct S as (-> & S2 & S3). destruct y as [q|e| |]; cbn in S3; try (intros; exact S3).
    destruct (sv_data_position v2) as [p|] eqn:Ep; [|intros; exact Logic.I]. intros Hseen.
    destruct (file_new_np img nt p n Hb Hfr (sv_data_position_nonneg _ _ Ep) d1 F1) as (G1 & G2). apply np_ok; [exact (np_not _ _ G2)|].
    intros f Ef. pose proof (Hseen f Ef) as Hf. rewrite Ef in G2. destruct G2 as (K1 & K2 & K3). splits; auto. split; auto. split; [lia|]. now apply T.
  Qed.

  (** ** Attribute lists *)
  Definition galist (l : alist) : Prop := match l with ALResident sl _ => bytes_ok sl | ALNonResident v => nr_sane true v end.
  Lemma alist_next_np l d : galist l -> d_img d = img -> let '(d', (l', x)) := alist_next l d in
    d_img d' = img /\ galist l' /\ match x with None => True | Some r => np entry_ok r end.
  Proof.
    intros Hl Hd. destruct l as [sl p|v]; cbn [alist_next].
    - destruct sl as [|b t]; [splits; auto|]. set (sl := b :: t) in *.
      pose proof (le_new_np (d_img no_dev) res_calm cursor_exact p (cursor_np _) (res_new sl p) no_dev) as H. cbv zeta in H.
      destruct (le_new cursor_exact p (res_new sl p) no_dev) as [d1 [s1 y]]. destruct H as (_ & _ & H); auto. { split; cbn; auto. lia. }
      cbn [snd]. destruct y as [e|e| |]; cbn in H; try (splits; auto; fail). destruct (_ <=? _); splits; auto. exact (bytes_ok_zdrop _ _ Hl).
    - destruct (nr_len v <=? nr_stream_position v); [splits; auto|].
      pose proof (le_new_np img (nr_sane true) (attached_exact nr_read) (nr_data_position v) (fun n Hn => attached_exact_np img (nr_sane true) nr_read n (nr_nreads img Hb) Hn) v d Hl Hd) as H.
      destruct (le_new (attached_exact nr_read) (nr_data_position v) v d) as [d1 [v1 y]]. destruct H as (H1 & _ & H). destruct y as [e|e| |]; cbn in H; try (splits; auto; fail).
      destruct H as (Q1 & Q2). destruct (nr_seek v (SCurrent (le_length e)) d1) as [d2 [v2 z]] eqn:E2.
      destruct (nr_seek_sane true v (SCurrent (le_length e)) d1 d2 v2 z Hl ltac:(split; unfold I64_MIN, I64_MAX, U16_MAX in *; lia) E2) as (S1 & S2 & ->).
      apply np_fine in S2. destruct z as [q|x0| |]; cbn in S2; try (splits; auto; fail). splits; auto. split; auto.
  Qed.
  Lemma alist_of_sval_np v : sval_calm v -> galist (alist_of_sval v).
  Proof. destruct v; cbn; [intros (H & _)|]; auto. Qed.
  Lemma le_ty_np e : np (fun _ => True) (le_ty e).
  Proof. unfold le_ty. destruct (known_type _); exact Logic.I. Qed.
  Lemma le_to_attribute_np e f : gfile cs f -> f_number f = le_number e -> np (fun a => at_file a = f /\ at_entries a = None /\ gattr cs a) (le_to_attribute e f).
  Proof.
    intros Hf Hn. unfold le_to_attribute. replace (f_number f =? le_number e) with true by lia. cbn [negb]. apply (np_bind _ _ _ _ (le_ty_np e)). intros ty _ _. now apply find_resident_np.
  Qed.

  (** ** Values that are spread over an attribute list *)
  Lemma druns_step_np data p s ss s' it : bytes_ok data -> druns_ok s -> runs_below cs data p druns_start -> runs_below cs data p s -> ss_sane true ss -> druns_next cs data p s = (s', it) ->
    druns_ok s' /\ runs_below cs data p s' /\ match it with None => True | Some r => np (fun r => ss_sane true (mkSS (Some r) (ss_pos ss) (ss_size ss))) r end.
  Proof.
    intros Hd (Ho & Hp) Hr0 Hr Hss H. assert (Hv : nr_sane true (mkNrv cs data p s ss)) by (split; cbn; auto; apply (us_cs U)).
    destruct (nr_next_data_run (mkNrv cs data p s ss)) as [v x] eqn:E. destruct (nr_next_sane true _ _ _ Hv E) as (N1 & N2 & N3 & N4 & N5 & _).
    unfold nr_next_data_run in E. cbn [nv_cs nv_data nv_position nv_runs nv_ss] in E. rewrite H in E. pose proof (runs_below_next _ _ _ _ _ _ Hr H) as Hr'.
    destruct it as [[r|e| |]|]; injection E as <- <-; pose proof (ns_off _ _ N1) as O; pose proof (ns_prev _ _ N1) as P; cbn [nv_runs nv_set_ss] in O, P; (split; [split; auto|]); (split; [exact Hr'|]); auto; try exact Logic.I.
    - exact (ns_ss _ _ N1).
    - discriminate.
  Qed.
  Definition gentries (o : option alist) : Prop := forall l, o = Some l -> galist l.
  Definition gstate (o : option attr_state) : Prop := forall a, o = Some a ->
    gattr cs (mkAttr (as_file a) (as_offset a) None) /\ ~ attr_resident_at (f_data (as_file a)) (as_offset a) /\
    forall s, as_runs a = Some s -> druns_ok s /\ forall p, runs_below cs (slice (f_data (as_file a)) (as_offset a + field 2 (f_data (as_file a)) (as_offset a + 32)) (as_offset a + attr_len_at (f_data (as_file a)) (as_offset a))) p s.
  Record glv (v : lval) : Prop := {
    gl_nt : lv_ntfs v = nt; gl_initial : galist (lv_initial v); gl_entries : gentries (lv_entries v); gl_state : gstate (lv_attr v);
    gl_ss : ss_sane true (lv_ss v); gl_size : 0 <= lv_size v <= U64_MAX; gl_same : ss_size (lv_ss v) = lv_size v }.
  Lemma lv_set_ss_np v s : glv v -> ss_sane true s -> ss_size s = lv_size v -> glv (lv_set_ss v s).
  Proof. intros [H1 H2 H3 H4 H5 H6 H7] H Hs. split; auto. Qed.
  Lemma lv_next_data_run_np v : glv v -> let '(v', x) := lv_next_data_run v in glv v' /\ np (fun _ => True) x.
  Proof.
    intros Hv. pose proof Hv as [H1 H2 H3 H4 H5 H6 H7]. unfold lv_next_data_run. rewrite H1.
    destruct (lv_attr v) as [a|] eqn:Ea; [|split; auto; exact Logic.I]. destruct (H4 a eq_refl) as (F & Hn & R).
    destruct (as_runs a) as [s|] eqn:Er; [|split; auto; exact Logic.I]. destruct (R s eq_refl) as (R1 & R2).
    set (v0 := lv_set_attr v _) in *. assert (Hv0 : glv v0). { split; cbn; auto. intros b [= <-]. cbn. splits; auto. discriminate. }
    set (m := let? at_ := _ in _) in *.
    assert (Hm : np (fun dp => bytes_ok (fst dp) /\ fst dp = slice (f_data (as_file a)) (as_offset a + field 2 (f_data (as_file a)) (as_offset a + 32)) (as_offset a + attr_len_at (f_data (as_file a)) (as_offset a))
      /\ forall p, runs_below cs (fst dp) p druns_start) m).
    { unfold m. pose proof (attr_new_np (as_file a) (as_offset a) None (ga_off _ _ F)) as Ha. apply (np_bind _ _ _ _ Ha). intros at_ _ (-> & _).
      apply np_ok; [exact (np_not _ _ (gattr_runs cs _ F Hn))|]. intros (data, p) Edp. pose proof (gattr_runs cs _ F Hn) as K. rewrite Edp in K. destruct K as (K1 & K2). splits; auto. cbn [fst] in *.
      unfold attr_nr_data_and_position in Edp. pose proof (gattr_basic cs _ F) as (_ & _ & El & _). pose proof (gattr_56 cs _ F Hn) as H56. cbn [at_file at_offset] in *.
      unfold attr_nr_runs_offset, attr_rd in Edp. cbn [at_file at_offset] in Edp. rewrite rd_in in Edp by (destruct F; cbn in *; lia). cbn [rbind] in Edp. rewrite El in Edp. cbn [rbind] in Edp.
      unfold get_range in Edp. destruct (_ && _); [|discriminate]. injection Edp as <- _. reflexivity. }
    destruct m as [[data p]|e| |]; cbn in Hm; try (split; auto; fail). destruct Hm as (M1 & -> & M3).
    destruct (druns_next cs _ p s) as [s' it] eqn:E. destruct (druns_step_np _ _ _ _ _ _ M1 R1 (M3 p) (R2 p) H5 E) as (D1 & D2 & D3).
    destruct it as [[r|e| |]|]; cbn in D3; try (split; auto; exact Logic.I). split; [|exact Logic.I].
    split; cbn; auto. intros b [= <-]. cbn. splits; auto. intros s0 [= <-]. split; auto. intros q. exact (runs_below_pos _ _ _ _ _ D2).
  Qed.
  Lemma lv_next_entry_np v d : glv v -> d_img d = img -> let '(d', (v', x)) := lv_next_entry v d in
    d_img d' = img /\ glv v' /\ match x with None => True | Some r => np entry_ok r end.
  Proof.
    intros Hv Hd. pose proof Hv as [H1 H2 H3 H4 H5 H6 H7]. unfold lv_next_entry. destruct (lv_entries v) as [l|] eqn:El; [|splits; auto].
    pose proof (alist_next_np l d (H3 l eq_refl) Hd) as A. destruct (alist_next l d) as [d1 [l1 y]]. destruct A as (A1 & A2 & A3).
    assert (Hset : forall o, gentries o -> glv (lv_set_entries v o)) by (intros o Ho; split; cbn; auto).
    assert (Hl1 : gentries (Some l1)) by (intros l2 [= <-]; exact A2). assert (Hn : gentries None) by (intros l2 [=]).
    destruct y as [[e|e| |]|]; cbn in A3; try (splits; auto; fail). destruct (_ =? _); [|splits; auto].
    pose proof (le_ty_np e) as Ht. destruct (le_ty e) as [ty|x0| |]; cbn in Ht; try (splits; auto; fail). destruct (_ =? _); splits; auto.
  Qed.
  Lemma lv_next_attribute_np v d : glv v -> d_img d = img -> let '(d', (v', x)) := lv_next_attribute v d in d_img d' = img /\ glv v' /\ np (fun _ => True) x.
  Proof.
    intros Hv Hd. unfold lv_next_attribute. pose proof (lv_next_entry_np v d Hv Hd) as A. destruct (lv_next_entry v d) as [d1 [v1 y]]. destruct A as (A1 & A2 & A3).
    destruct y as [[e|e| |]|]; cbn in A3; try (splits; auto; exact Logic.I). destruct A3 as (_ & A3).
    unfold le_to_file. rewrite (gl_nt _ Hv). destruct (ntfs_file_np (le_number e) A3 d1 A1) as (F1 & F2). destruct (ntfs_file nt (le_number e) d1) as [d2 y2]. cbn [fst snd] in *.
    destruct y2 as [f|x2| |]; cbn in F2; try (splits; auto; exact Logic.I). destruct F2 as (F2 & F3).
    pose proof (le_to_attribute_np e f F2 F3) as G. destruct (le_to_attribute e f) as [a|x3| |]; cbn in G; try (splits; auto; exact Logic.I). destruct G as (G1 & G2 & G3).
    assert (K : np (fun dp => ~ attr_resident_at (f_data (at_file a)) (at_offset a) /\ bytes_ok (fst dp) /\ attr_nr_data_and_position a = Ok dp /\ forall p, runs_below cs (fst dp) p druns_start) (lv_attr_runs a)).
    { unfold lv_attr_runs. destruct (gattr_basic cs a G3) as (_ & _ & _ & _ & _ & b & Eb & Hbb). rewrite Eb. cbn [rbind]. destruct b; [exact Logic.I|].
      assert (Hn : ~ attr_resident_at (f_data (at_file a)) (at_offset a)) by (intros K; apply Hbb in K; discriminate).
      pose proof (gattr_runs cs a G3 Hn) as K. destruct (attr_nr_data_and_position a); cbn in *; auto. destruct K. splits; auto. }
    destruct (lv_attr_runs a) as [[data p]|x4| |]; cbn in K; try (splits; auto; exact Logic.I). destruct K as (K1 & K2 & K3 & K4).
    destruct (druns_next cs data p druns_start) as [s' it] eqn:E5.
    destruct (druns_step_np _ _ _ _ _ _ K2 druns_start_ok (K4 p) (K4 p) (gl_ss _ A2) E5) as (D1 & D2 & D3).
    destruct it as [[r|x5| |]|]; cbn in D3; try (splits; auto; exact Logic.I). splits; auto; [|exact Logic.I].
    destruct A2 as [B1 B2 B3 B4 B5 B6 B7]. split; cbn; auto. intros b [= <-]. cbn [as_file as_offset as_runs]. subst f. destruct a as [f o e0]. cbn [at_file at_offset at_entries] in *. subst e0.
    splits; auto. intros s0 [= <-]. split; auto. intros q. apply (runs_below_pos _ _ p).
    replace (slice _ _ _) with data; auto.
    unfold attr_nr_data_and_position in K3. pose proof (gattr_basic cs _ G3) as (_ & _ & El & _). pose proof (gattr_56 cs _ G3 K1) as H56. cbn [at_file at_offset] in *.
    unfold attr_nr_runs_offset, attr_rd in K3. cbn [at_file at_offset] in K3. rewrite rd_in in K3 by (destruct G3; cbn in *; lia). cbn [rbind] in K3. rewrite El in K3. cbn [rbind] in K3.
    unfold get_range in K3. destruct (_ && _); [|discriminate]. injection K3 as <- _. reflexivity.
  Qed.
  Lemma lv_advance_np v d : glv v -> d_img d = img -> let '(d', (v', x)) := lv_advance v d in d_img d' = img /\ glv v' /\ np (fun _ => True) x.
  Proof.
    intros Hv Hd. unfold lv_advance. pose proof (lv_next_data_run_np v Hv) as H. destruct (lv_next_data_run v) as [v1 y]. destruct H as (H1 & H2).
    destruct y as [[]|e| |]; cbn in H2; try (splits; auto; exact Logic.I). now apply lv_next_attribute_np.
  Qed.
  Lemma lv_rewind_np v d : glv v -> d_img d = img -> let '(d', (v', x)) := lv_rewind v d in d_img d' = img /\ glv v' /\ np (fun _ => True) x.
  Proof.
    intros Hv Hd. unfold lv_rewind. set (w := lv_set_ss _ _) in *.
    assert (Hw : glv w). { destruct Hv as [H1 H2 H3 H4 H5 H6 H7]. split; cbn; auto. - now intros l [= <-]. - split; [cbn; unfold U64_MAX; lia|]. split; auto. intros r [=]. }
    pose proof (lv_next_attribute_np w d Hw Hd) as H. destruct (lv_next_attribute w d) as [d1 [v1 y]]. destruct H as (H1 & H2 & H3). destruct y; cbn in H3; splits; auto.
  Qed.
  Lemma lv_read_loop_np fuel : forall v n acc d, glv v -> d_img d = img -> bytes_ok acc ->
    let '(d', (v', x)) := stream_read_loop lv_ops fuel v n acc d in d_img d' = img /\ glv v' /\ np (fun bs => bytes_ok bs /\ zlen bs <= Z.max n (zlen acc)) x.
  Proof.
    induction fuel as [|k IH]; intros v n acc d Hv Hd Ha; cbn [stream_read_loop]; (destruct (n <=? zlen acc) eqn:En; [splits; auto; cbn; split; auto; lia|]); [splits; auto; exact Logic.I|].
    cbn [so_ss so_set so_advance lv_ops]. pose proof (ss_read_data_run_evolves (lv_ss v) (n - zlen acc) d) as (Ev & _).
    destruct (ss_read_data_run (lv_ss v) (n - zlen acc) d) as [d1 [s1 y]] eqn:E1. cbn [fst] in Ev.
    destruct (ss_read_sane true (lv_ss v) (n - zlen acc) d d1 s1 y (gl_ss _ Hv) ltac:(lia) E1) as (R1 & R2 & R3 & R4 & R5). apply np_fine in R3.
    assert (Hv1 : glv (lv_set_ss v s1)) by (apply lv_set_ss_np; auto; rewrite R2; apply (gl_same _ Hv)). assert (Hd1 : d_img d1 = img) by congruence.
    destruct y as [bs|e| |]; cbn in R3; try (splits; auto; fail). destruct (R5 bs eq_refl) as (L1 & _). destruct bs as [|b t].
    - pose proof (lv_advance_np (lv_set_ss v s1) d1 Hv1 Hd1) as A. destruct (lv_advance (lv_set_ss v s1) d1) as [d2 [v2 z]]. destruct A as (A1 & A2 & A3).
      destruct z as [[]|e| |]; cbn in A3; try (splits; auto; fail); [apply IH; auto|]. splits; auto. cbn. split; auto. lia.
    - pose proof (ss_read_bytes _ _ _ _ _ _ ltac:(now rewrite Hd) E1) as Hbs. set (bs := b :: t) in *.
      pose proof (IH (lv_set_ss v s1) n (acc ++ bs) d1 Hv1 Hd1 ltac:(rewrite bytes_ok_app; auto)) as A.
      destruct (stream_read_loop lv_ops k (lv_set_ss v s1) n (acc ++ bs) d1) as [d2 [v2 z]]. destruct A as (A1 & A2 & A3). splits; auto.
      apply (np_weak _ _ _ A3). intros a (B1 & B2). split; auto. rewrite zlen_app in B2. lia.
  Qed.
  Lemma lv_nreads k : nreads img glv (lv_read k).
  Proof.
    intros v n d Hv Hd Hn. unfold lv_read. pose proof (lv_read_loop_np k v n [] d Hv Hd (Forall_nil _)) as H. destruct (stream_read_loop lv_ops k v n [] d) as [d1 [v1 x]].
    destruct H as (H1 & H2 & H3). splits; auto. apply (np_weak _ _ _ H3). intros a (A1 & A2). change (zlen (@nil Z)) with 0 in A2. split; auto. lia.
  Qed.
  Lemma ss_seek_np s is_start left s1 left1 y : ss_sane true s -> left <= U64_MAX -> 0 < left -> (is_start = false -> left <= I64_MAX) ->
    ss_seek_data_run s is_start left = (s1, left1, y) -> ss_sane true s1 /\ ss_size s1 = ss_size s /\ ss_pos s1 = ss_pos s /\ left1 <= left /\ exists t, y = Ok t.
  Proof.
    intros Hs Hl Hl0 Hl2 E1. pose proof Hs as (S1 & S2 & S3). unfold ss_seek_data_run in E1. destruct (ss_run s) as [r|] eqn:Er.
    2: { injection E1 as <- <- <-. splits; eauto; lia. }
    destruct (S3 r eq_refl) as (R1 & R2 & R3 & R4).
    destruct (left <? run_remaining r) eqn:E2.
    2: { injection E1 as <- <- <-. splits; eauto; unfold run_remaining; lia. }
    unfold run_remaining in E2. unfold run_seek in E1.
    destruct is_start.
    - cbn [seek_contiguous] in E1. injection E1 as <- <- <-. splits; eauto; try lia. split; [exact S1|]. split; [exact S2|]. intros r0 [= <-].
      split; [cbn; lia|]. split; [cbn; lia|]. split; auto.
    - assert (Ht : to_i64 left = left) by (apply to_i64_small; lia). rewrite Ht in E1.
      unfold seek_contiguous in E1. replace (0 <=? left) with true in E1 by lia. unfold checked_add64 in E1.
      replace (r_sp r + left <=? U64_MAX) with true in E1 by lia.
      injection E1 as <- <- <-. splits; eauto; try lia. split; [exact S1|]. split; [exact S2|]. intros r0 [= <-].
      split; [cbn; lia|]. split; [cbn; lia|]. split; auto.
  Qed.
  Lemma lv_seek_loop_np fuel : forall v is_start left d, glv v -> d_img d = img -> left <= U64_MAX -> (is_start = false -> left <= I64_MAX) ->
    let '(d', (v', x)) := stream_seek_loop lv_ops fuel v is_start left d in d_img d' = img /\ glv v' /\ ss_pos (lv_ss v') = ss_pos (lv_ss v) /\ np (fun _ => True) x.
  Proof.
    induction fuel as [|k IH]; intros v is_start left d Hv Hd Hl Hl2; cbn [stream_seek_loop]; (destruct (left <=? 0) eqn:E0; [splits; auto; exact Logic.I|]); [splits; auto; exact Logic.I|].
    cbn [so_ss so_set so_advance lv_ops]. destruct (ss_seek_data_run (lv_ss v) is_start left) as [[s1 left1] y] eqn:E1.
    destruct (ss_seek_np (lv_ss v) is_start left s1 left1 y (gl_ss _ Hv) Hl ltac:(lia) Hl2 E1) as (R1 & R2 & R3 & R4 & t & ->).
    assert (Hv1 : glv (lv_set_ss v s1)) by (apply lv_set_ss_np; auto; rewrite R2; apply (gl_same _ Hv)).
    destruct t; [splits; auto; exact Logic.I|].
    pose proof (lv_advance_np (lv_set_ss v s1) d Hv1 Hd) as A. destruct (lv_advance (lv_set_ss v s1) d) as [d2 [v2 z]] eqn:E2. destruct A as (A1 & A2 & A3).
    destruct (lv_advance_pos _ _ _ _ _ E2) as (P1 & P2 & _). cbn [lv_ss lv_set_ss] in P1, P2.
    destruct z as [[]|e| |]; cbn in A3; try (splits; auto; congruence).
    - pose proof (IH v2 is_start left1 d2 A2 A1 ltac:(lia) ltac:(intros HH; specialize (Hl2 HH); lia)) as K. destruct (stream_seek_loop lv_ops k v2 is_start left1 d2) as [d3 [v3 x3]].
      destruct K as (K1 & K2 & K3 & K4). splits; auto. congruence.
    - splits; auto; [|cbn; congruence]. apply lv_set_ss_np; auto; [|apply (gl_same _ A2)]. destruct (gl_ss _ A2) as (B1 & B2 & B3). split; auto. split; auto. intros r [=].
  Qed.
  Lemma lv_seek_np k v sf d : glv v -> d_img d = img -> seek_arg_ok sf -> let '(d', (v', x)) := lv_seek k v sf d in d_img d' = img /\ glv v' /\ np (fun _ => True) x.
  Proof.
    intros Hv Hd Ha. unfold lv_seek, stream_seek. cbn [so_ss so_rewind lv_ops]. pose proof (gl_ss _ Hv) as (S1 & S2 & S3). pose proof (gl_size _ Hv) as Hsize.
    destruct (optimize_seek_cases (lv_ss v) sf (lv_len v) Hsize S1 Ha) as [(Hq & Hdq & E)|[(Hq & Hdq & E)|(Hq & E)]];
      rewrite E; set (q := seek_target _ _ _) in *.
    - replace (0 <=? q - ss_pos (lv_ss v)) with true by lia.
      pose proof (lv_seek_loop_np k v false (q - ss_pos (lv_ss v)) d Hv Hd ltac:(unfold I64_MAX, U64_MAX in *; lia) ltac:(lia)) as K.
      destruct (stream_seek_loop lv_ops k v false (q - ss_pos (lv_ss v)) d) as [d1 [v1 x1]]. destruct K as (K1 & K2 & K3 & K4). unfold stream_seek_finish.
      destruct x1 as [[]|e| |]; cbn in K4; try (splits; auto; fail). cbn [so_ss so_set lv_ops]. rewrite K3. replace (U64_MAX <? _) with false by lia. splits; auto.
      destruct (gl_ss _ K2) as (B1 & B2 & B3). apply lv_set_ss_np; auto; [|apply (gl_same _ K2)]. split; auto. cbn. lia.
    - pose proof (lv_rewind_np v d Hv Hd) as R. destruct (lv_rewind v d) as [d1 [v1 z]]. destruct R as (R1 & R2 & R3). destruct z as [u|e| |]; cbn in R3; try (splits; auto; fail).
      pose proof (lv_seek_loop_np k v1 true q d1 R2 R1 ltac:(lia) ltac:(discriminate)) as K. destruct (stream_seek_loop lv_ops k v1 true q d1) as [d2 [v2 x1]]. destruct K as (K1 & K2 & K3 & K4).
      unfold stream_seek_finish. destruct x1 as [[]|e| |]; cbn in K4; try (splits; auto; fail). cbn [so_ss so_set lv_ops]. splits; auto.
      destruct (gl_ss _ K2) as (B1 & B2 & B3). apply lv_set_ss_np; auto; [|apply (gl_same _ K2)]. split; auto.
    - splits; auto; exact Logic.I.
  Qed.

  (** ** Values of any kind *)
  Definition gav (v : aval) : Prop := match v with AVSimple s => sval_calm s | AVList l => glv l end.
  Lemma av_nreads k : nreads img gav (av_read k).
  Proof.
    intros v n d Hv Hd Hn. destruct v as [s|l]; cbn [av_read].
    - pose proof (sv_nreads img Hb s n d Hv Hd Hn) as H. destruct (sv_read s n d) as [d1 [r1 x]]. exact H.
    - pose proof (lv_nreads k l n d Hv Hd Hn) as H. destruct (lv_read k l n d) as [d1 [r1 x]]. exact H.
  Qed.
  Lemma av_seek_np k v sf d : gav v -> d_img d = img -> seek_arg_ok sf -> let '(d', (v', x)) := av_seek k v sf d in d_img d' = img /\ gav v' /\ np (fun _ => True) x.
  Proof.
    intros Hv Hd Ha. destruct v as [s|l]; cbn [av_seek].
    - pose proof (sv_seek_np s sf d Hv Ha) as H. destruct (sv_seek s sf d) as [d1 [r1 x]]. destruct H as (-> & H). auto.
    - pose proof (lv_seek_np k l sf d Hv Hd Ha) as H. destruct (lv_seek k l sf d) as [d1 [r1 x]]. exact H.
  Qed.
  Lemma av_len_nonneg v : gav v -> 0 <= av_len v.
  Proof.
    destruct v as [[r|r]|l]; cbn; intros H.
    - apply zlen_nonneg.
    - destruct (ns_ss _ _ H) as (_ & H2 & _). unfold nr_len. lia.
    - apply (gl_size _ H).
  Qed.
  Lemma av_run_np k ops : forall v d, gav v -> d_img d = img -> Forall op_ok ops -> Forall op_calm (reader_run (av_read k) (av_seek k) v d ops).
  Proof.
    induction ops as [|o ops IH]; intros v d Hv Hd Ho; [constructor|]. inversion Ho as [|? ? O1 O2]; subst. cbn [reader_run]. destruct o as [n|sf]; cbn [reader_step].
    - pose proof (av_nreads k v n d Hv Hd ltac:(apply O1)) as H. destruct (av_read k v n d) as [d1 [v1 x]]. destruct H as (H1 & H2 & H3). apply np_not in H3.
      constructor; [split; congruence|]. apply IH; auto.
    - pose proof (av_seek_np k v sf d Hv Hd O1) as H. destruct (av_seek k v sf d) as [d1 [v1 x]]. destruct H as (H1 & H2 & H3). apply np_not in H3.
      constructor; [split; congruence|]. apply IH; auto.
  Qed.

  (** An attribute that the library hands out: only non-resident ones come with list entries. *)
  Definition gany (a : attribute) : Prop := gattr cs a /\ forall l, at_entries a = Some l -> galist l /\ ~ attr_resident_at (f_data (at_file a)) (at_offset a).
  Lemma lv_new_np l inst ty size : galist l -> 0 <= size <= U64_MAX -> npm img glv (lv_new nt l inst ty size).
  Proof.
    intros Hl Hs d Hd. unfold lv_new. set (v := mkLv _ _ _ _ _ _ _ _). assert (Hv : glv v).
    { split; cbn; auto. - now intros l0 [= <-]. - intros a [=]. - split; [cbn; unfold U64_MAX; lia|]. split; auto. intros r [=]. }
    pose proof (lv_next_attribute_np v d Hv Hd) as H. destruct (lv_next_attribute v d) as [d1 [v1 y]]. destruct H as (H1 & H2 & H3). destruct y; cbn in *; auto.
  Qed.
  Lemma attr_value_np a : gany a -> npm img gav (attr_value nt a).
  Proof.
    intros (Ha & He). unfold attr_value. destruct (gattr_basic cs a Ha) as (B1 & B2 & B3 & B4 & B5 & B6). destruct (at_entries a) as [l|].
    - destruct (He l eq_refl) as (Hl & Hn). apply (npm_try img _ _ _ _ (gattr_size cs a Ha Hn)). intros size _ Hs. rewrite B4.
      apply (npm_try img (fun _ => True)); [exact Logic.I|]. intros inst _ _. apply (npm_try img _ _ _ _ B1). intros ty _ _.
      apply (npm_bind img glv); [now apply lv_new_np|]. intros v Hv d Hd. split; auto.
    - apply (npm_try img _ _ _ _ (gattr_value cs a (us_cs U) Ha)). intros v _ Hv d Hd. split; auto.
  Qed.
  Lemma attr_structured_np {A} (Q : A -> Prop) k (new : (Z -> RM aval (list Z)) -> position -> Z -> RM aval A) ty a : new_np img gav Q new -> gany a ->
    npm img Q (attr_structured k nt new ty a).
  Proof.
    intros Hnew Ha. unfold attr_structured. apply (npm_try img _ _ _ _ (gattr_ensure cs a ty (proj1 Ha))). intros _ _ _.
    apply (npm_bind img gav); [now apply attr_value_np|]. intros v Hv d Hd. unfold from_aval.
    pose proof (Hnew (attached_exact (av_read k)) (fun n Hn => attached_exact_np img gav (av_read k) n (av_nreads k) Hn) (av_data_position v) (av_len v) (av_len_nonneg v Hv) v d Hv Hd) as H.
    destruct (new _ _ _ v d) as [d1 [v1 x]]. destruct H as (H1 & H2 & H3). auto.
  Qed.
  Lemma value_calm_of a : gany a -> value_calm nt img a.
  Proof.
    intros Ha. destruct (gattr_basic cs a (proj1 Ha)) as (B1 & B2 & B3 & B4 & B5 & b & B6 & _). unfold value_calm.
    repeat (split; [first [exact (np_not _ _ B1)|exact (np_not _ _ B2)|rewrite B4; discriminate|exact (np_not _ _ B5)|rewrite B6; discriminate|exact (np_not _ _ (gattr_length cs a (proj1 Ha)))]|]).
    intros k d Hd. split; [exact (np_not _ _ (proj2 (attr_value_np a Ha d Hd)))|]. split.
    { intros d1 v E ops d2 Hd2 Ho. apply av_run_np; auto. pose proof (proj2 (attr_value_np a Ha d Hd)) as H. rewrite E in H. exact H. }
    splits; eapply np_not; apply attr_structured_np; auto using fn_new_np, si_new_np, vi_new_np, vn_new_np, oi_new_np.
  Qed.

  (** ** The iteration over all attributes *)
  Record gattrs (st : attrs) : Prop := { gx_file : gfile cs (ax_file st); gx_raw : walks cs (f_data (ax_file st)) (ax_raw st); gx_list : gentries (ax_list st) }.
  Definition gitem (i : attr_item) : Prop := np gany (item_to_attribute i).
  Lemma gitem_of f vf o e : gany (mkAttr (match vf with Some g => g | None => f end) o e) -> gitem (mkItem f vf o e).
  Proof.
    intros H. unfold gitem, item_to_attribute. cbn [ai_value_file ai_file ai_offset ai_entries]. pose proof (ga_off _ _ (proj1 H)) as Ho. cbn [at_offset] in Ho.
    apply (np_weak _ _ _ (attr_new_np (match vf with Some g => g | None => f end) o e Ho)). intros a (-> & _). exact H.
  Qed.
  Lemma gattr_entries a e : gattr cs a -> gattr cs (mkAttr (at_file a) (at_offset a) e).
  Proof. intros [H1 H2 H3 H4]. split; auto. Qed.
  Lemma item_calm_of i : gitem i -> item_calm nt img i.
  Proof. intros H. split; [exact (np_not _ _ H)|]. intros a E. apply value_calm_of. unfold gitem in H. now rewrite E in H. Qed.
  Lemma attrs_entry_item_np st l e ty d : gattrs st -> galist l -> entry_ok e -> d_img d = img ->
    let '(d', (st', x)) := attrs_entry_item nt st l e ty d in d_img d' = img /\ gattrs st' /\ match x with None => True | Some r => np gitem r end.
  Proof.
    intros Hst Hl (_ & He) Hd. pose proof Hst as [X1 X2 X3]. unfold attrs_entry_item, le_to_file. cbv zeta. cbn [ax_file ax_raw ax_list].
    assert (Hs : forall k, gattrs (mkAttrs (ax_file st) (ax_raw st) (ax_list st) k)) by (intros k; split; auto).
    destruct (ntfs_file_np (le_number e) He d Hd) as (F1 & F2). destruct (ntfs_file nt (le_number e) d) as [d1 y]. cbn [fst snd] in F1, F2.
    destruct y as [f|x| |]; cbn in F2; try (splits; auto; fail). destruct F2 as (Gf & Hn).
    pose proof (le_to_attribute_np e f Gf Hn) as A. destruct (le_to_attribute e f) as [a|x| |]; cbn in A; cbn [rbind]; try (splits; auto; fail).
    destruct A as (A1 & A2 & A3). destruct (gattr_basic cs a A3) as (_ & _ & _ & _ & _ & b & E & Hres). rewrite E. cbn [rbind].
    pose proof (fun en => gattr_entries a en A3) as Ge. rewrite A1 in Ge, Hres. destruct b; splits; auto.
    - apply gitem_of. split; auto. intros l0 [=].
    - apply gitem_of. split; auto. intros l0 [= <-]. split; auto. cbn. intros K. apply Hres in K. discriminate.
  Qed.
  Lemma attrs_next_np fuel : forall st d, gattrs st -> d_img d = img ->
    let '(d', (st', x)) := attrs_next fuel nt st d in d_img d' = img /\ gattrs st' /\ match x with None => True | Some r => np gitem r end.
  Proof.
    induction fuel as [|k IH]; intros st d Hst Hd; cbn [attrs_next]; [splits; auto; exact Logic.I|]. pose proof Hst as [X1 X2 X3].
    assert (Hraw : forall o d1, gentries o -> d_img d1 = img ->
      let '(d', (st', x)) := match raw_next (ax_file st) (ax_raw st) with
        | (s', None) => (d1, (mkAttrs (ax_file st) s' o (ax_skip st), None))
        | (s', Some (Ok a)) =>
            let st1 := mkAttrs (ax_file st) s' o (ax_skip st) in
            match attr_ty a with
            | Ok ty =>
                if ty =? TY_AttributeList then
                  match attr_value_simple (cluster_size nt) a with
                  | Ok v => attrs_next k nt (mkAttrs (ax_file st) s' (Some (alist_of_sval v)) (ax_skip st)) d1
                  | Err x => (d1, (st1, Some (Err x)))
                  | Panic => (d1, (st1, Some Panic))
                  | OutOfFuel => (d1, (st1, Some OutOfFuel))
                  end
                else (d1, (st1, Some (Ok (mkItem (ax_file st) None (at_offset a) None))))
            | Err _ => (d1, (st1, Some (Ok (mkItem (ax_file st) None (at_offset a) None))))
            | Panic => (d1, (st1, Some Panic))
            | OutOfFuel => (d1, (st1, Some OutOfFuel))
            end
        | (s', Some (Err x)) => (d1, (mkAttrs (ax_file st) s' o (ax_skip st), Some (Err x)))
        | (s', Some Panic) => (d1, (mkAttrs (ax_file st) s' o (ax_skip st), Some Panic))
        | (s', Some OutOfFuel) => (d1, (mkAttrs (ax_file st) s' o (ax_skip st), Some OutOfFuel))
        end in d_img d' = img /\ gattrs st' /\ match x with None => True | Some r => np gitem r end).
    { intros o d1 Ho Hd1. pose proof (raw_next_np cs (ax_file st) (ax_raw st) (proj1 X1) X2) as H. destruct (raw_next (ax_file st) (ax_raw st)) as [s' y]. destruct H as (H1 & H2).
      assert (Hst1 : forall o2, gentries o2 -> gattrs (mkAttrs (ax_file st) s' o2 (ax_skip st))) by (intros o2 Ho2; split; auto).
      destruct y as [y|]; [|splits; auto]. destruct y as [a|e| |]; cbn in H2; try (splits; auto; fail). destruct H2 as (-> & Ga). cbv zeta. cbn [at_offset].
      assert (Hi : gitem (mkItem (ax_file st) None (ax_raw st) None)) by (apply gitem_of; split; auto; intros l [=]).
      destruct (gattr_basic cs _ Ga) as (B1 & _). destruct (attr_ty _) as [ty|e| |]; cbn in B1; try (splits; auto; fail); try contradiction.
      destruct (ty =? TY_AttributeList); [|splits; auto].
      pose proof (gattr_value cs _ (us_cs U) Ga) as V. destruct (attr_value_simple cs _) as [v|e| |]; cbn in V; try (splits; auto; fail).
      apply IH; auto. apply Hst1. intros l [= <-]. now apply alist_of_sval_np. }
    destruct (ax_list st) as [l|] eqn:El; [|exact (Hraw None d ltac:(intros l [=]) Hd)].
    pose proof (alist_next_np l d (X3 l eq_refl) Hd) as H. destruct (alist_next l d) as [d1 [l1 y]]. destruct H as (H1 & H2 & H3).
    assert (Ho : gentries (Some l1)) by (intros l2 [= <-]; exact H2).
    assert (Hst1 : gattrs (mkAttrs (ax_file st) (ax_raw st) (Some l1) (ax_skip st))) by (split; auto).
    destruct y as [[e|e| |]|]; cbn in H3; try (splits; auto; fail).
    - pose proof (le_ty_np e) as Ht. destruct (le_ty e) as [ty|x| |]; cbn in Ht; try (splits; auto; fail).
      destruct (_ =? _); [apply IH; auto|]. destruct (match ax_skip st with Some _ => _ | None => _ end); [apply IH; auto|]. apply attrs_entry_item_np; auto.
    - exact (Hraw (Some l1) d1 Ho H1).
  Qed.
  Lemma attrs_start_np f : gfile cs f -> np gattrs (attrs_start f).
  Proof. intros H. unfold attrs_start. apply (np_bind _ _ _ _ (raw_start_np cs f H)). intros s _ Hs. split; cbn; auto. intros l [=]. Qed.
  Lemma attrs_search_np {A} (accept : attr_item -> attribute -> M (option A)) (Q : A -> Prop) :
    (forall i a, gitem i -> gany a -> npm img (fun o => forall x, o = Some x -> Q x) (accept i a)) ->
    forall fuel st, gattrs st -> npm img (fun o => forall x, o = Some x -> Q x) (attrs_search fuel nt accept st).
  Proof.
    intros Ha. induction fuel as [|k IH]; intros st Hst d Hd; [split; auto; exact Logic.I|]. cbn [attrs_search].
    pose proof (attrs_next_np (S k) st d Hst Hd) as H. destruct (attrs_next (S k) nt st d) as [d1 [st1 x1]]. destruct H as (H1 & H2 & H3).
    destruct x1 as [[i|e| |]|]; cbn in H3; try (split; auto; cbn; auto; fail).
    - pose proof H3 as Hi. unfold gitem in H3. destruct (item_to_attribute i) as [a|e| |]; cbn in H3; try (split; auto; fail).
      destruct (Ha i a Hi H3 d1 H1) as (K1 & K2). destruct (accept i a d1) as [d2 x2]. cbn [fst snd] in K1, K2.
      destruct x2 as [[x|]|e| |]; cbn in K2; try (split; auto; fail). apply IH; auto.
    - split; auto. cbn. discriminate.
  Qed.
  Lemma find_attribute_np fuel f ty name : gfile cs f -> npm img gitem (find_attribute fuel nt f ty name).
  Proof.
    intros Hf. unfold find_attribute. apply (npm_try img gattrs); [now apply attrs_start_np|]. intros st _ Hst.
    apply (npm_bind img (fun o => forall x, o = Some x -> gitem x)).
    - apply attrs_search_np; auto. intros i a Hi Hga. apply npm_lift. apply (np_bind _ _ _ _ (gattr_matches cs a ty name None (proj1 Hga))). intros [] _ _; cbn; [|discriminate]. now intros x [= <-].
    - intros [i|] Ho; apply npm_lift; cbn; auto.
  Qed.
  Lemma gattr_name a : gattr cs a -> np bytes_ok (attr_name a).
  Proof.
    intros H. destruct (gattr_basic cs a H) as (_ & B & _). apply np_ok; [exact (np_not _ _ B)|]. intros bs E. destruct a as [f o e]. destruct H as [H1 H2 H3 _]. cbn [at_file at_offset] in *.
    destruct (attr_name_spec f H1 o e H2 H3) as [(bs' & E' & Hbs)|(x & E' & _)]; rewrite E' in E; [|discriminate]. injection E as ->.
    destruct Hbs as [(_ & ->)|(_ & _ & _ & ->)]; [constructor|now apply bytes_ok_slice].
  Qed.
  Definition can_compare (stream : list Z) : Prop := stream = [] \/ Forall unit_ok stream /\ exists t, upcase_table nt = Some t /\ zlen t = 65536.
  Lemma file_data_np fuel f stream : gfile cs f -> can_compare stream -> npm img (fun o => forall i, o = Some i -> gitem i) (file_data fuel nt f stream).
  Proof.
    intros Hf Hc. unfold file_data. apply (npm_try img gattrs); [now apply attrs_start_np|]. intros st _ Hst. apply attrs_search_np; auto. intros i a Hi Hga. apply npm_lift. unfold data_accepts.
    destruct (gattr_basic cs a (proj1 Hga)) as (B1 & _). apply (np_bind _ _ _ _ B1). intros ty _ _. destruct (negb _); [cbn; discriminate|].
    apply (np_bind _ _ _ _ (gattr_name a (proj1 Hga))). intros nm _ Hnm. apply (np_bind (fun _ => True)); [|intros [] _ _; cbn; [now intros x [= <-]|discriminate]].
    destruct stream as [|u stream]; [exact Logic.I|]. destruct Hc as [Hc|(Hc & t & Ht & Hl)]; [discriminate|].
    destruct (upcase_cmp_spec nt t (units nm) (u :: stream) Ht Hl (unit_ok_units nm Hnm) Hc) as (c & -> & _). exact Logic.I.
  Qed.
  Lemma file_name_of_np fuel f ns parent : gfile cs f -> npm img (fun _ => True) (file_name_of fuel nt f ns parent).
  Proof.
    intros Hf. unfold file_name_of. apply (npm_try img gattrs); [now apply attrs_start_np|]. intros st _ Hst.
    eapply npm_weak; [apply (attrs_search_np _ (fun _ => True))|]; auto. intros i a Hi Hga.
    destruct (gattr_basic cs a (proj1 Hga)) as (B1 & _). apply (npm_try img _ _ _ _ B1). intros ty _ _. destruct (negb _); [apply npm_lift; cbn; auto|].
    eapply npm_bind; [apply attr_structured_np; auto; apply fn_new_np|]. intros fn (Hfn & _). unfold fn_namespace. replace (_ <=? 3) with true by lia.
    apply (npm_try img (fun _ => True)); [exact Logic.I|]. intros n _ _. destruct (negb _); [apply npm_lift; cbn; auto|]. destruct (negb _); apply npm_lift; cbn; auto.
  Qed.
  Lemma upcase_read_np fuel : npm img (fun t => zlen t = 65536) (upcase_read fuel nt).
  Proof.
    unfold upcase_read. eapply npm_bind; [apply (ntfs_file_np 10); lia|]. intros f (Gf & _). eapply npm_bind; [apply file_data_np; auto; now left|]. intros o Ho.
    apply (npm_try img gitem). { destruct o; [|exact Logic.I]. cbn. auto. } intros i _ Hi. apply (npm_try img gany); [exact Hi|]. intros a _ Hga.
    apply (npm_try img _ _ _ _ (gattr_length cs a (proj1 Hga))). intros len _ _. destruct (negb _); [apply npm_lift; exact Logic.I|].
    eapply npm_bind; [now apply attr_value_np|]. intros v Hv d Hd.
    pose proof (read_exact_np img gav (av_read fuel) (av_nreads fuel) UPCASE_TABLE_SIZE ltac:(unfold UPCASE_TABLE_SIZE; lia) v d Hv Hd) as H.
    destruct (rs_read_exact (av_read fuel) v UPCASE_TABLE_SIZE d) as [d1 [v1 x]]. destruct H as (H1 & H2 & H3). destruct x as [bs|e| |]; cbn in *; auto. split; auto.
    apply units_zlen. rewrite (proj2 H3). reflexivity.
  Qed.
  Lemma find_structured_np {A} (Q : A -> Prop) (new : (Z -> RM resv (list Z)) -> position -> Z -> RM resv A) ty f n : (forall im, new_np im res_calm Q new) -> gfile cs f -> np Q (find_structured new ty f n).
  Proof.
    intros Hnew Hf. unfold find_structured, find_resident_structured. apply (np_bind res_calm).
    - apply (np_bind _ _ _ _ (find_resident_np cs f ty n None Hf)). intros a _ (_ & _ & Ga). now apply (gattr_resident_structured cs).
    - intros v _ Hv. now apply from_resident_np.
  Qed.
End Vol.
