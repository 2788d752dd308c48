(** * Proofs for C66: values attached to a device. *)
From Coq Require Import Lia.
From Verif Require Import Base Dev Types DataRuns Stream NonResident Resident BootSector Attribute File Structured AttrList Upcase Attached
  Spec SpecValues SpecAttrList SpecTotal SpecFaults SpecAttached BaseProofs ReaderProofs NonResidentProofs ResidentProofs FileProofs ValueProofs AttrListProofs ReadLenProofs FaultProofs ListTotalProofs EvolveProofs TerminationProofs ShellTotalProofs.

Lemma ztake_nonempty n (l : list Z) : 1 <= n -> ztake n l = [] -> l = [].
Proof. intros Hn H. destruct l as [|x t]; auto. apply (f_equal zlen) in H. rewrite zlen_ztake, zlen_cons in H. pose proof (zlen_nonneg t). change (zlen (@nil Z)) with 0 in H. lia. Qed.

Lemma zdrop_step n p (l : list Z) : 0 <= p -> 0 <= n -> zdrop p l = ztake n (zdrop p l) ++ zdrop (p + zlen (ztake n (zdrop p l))) l.
Proof.
  intros Hp Hn. rewrite <- (ztake_zdrop n (zdrop p l)) at 1. f_equal. rewrite zdrop_zdrop by lia. rewrite zlen_ztake, zlen_zdrop.
  destruct (Z.le_ge_cases (p + n) (zlen l)) as [H|H].
  - f_equal. lia.
  - rewrite !zdrop_all by lia. reflexivity.
Qed.

Section Acts.
  Context {V : Type} (read : V -> Z -> dev -> dev * (V * res (list Z))) (seek : V -> seekfrom -> dev -> dev * (V * res Z)) (c : list Z) (size : Z).

  Lemma acts_read v d p n d1 v1 r : acts_as read seek v d c size p -> 0 <= n <= U64_MAX -> read v n d = (d1, (v1, r)) ->
    r = Ok (ztake n (zdrop p c)) /\ acts_as read seek v1 d1 c size (p + zlen (ztake n (zdrop p c))).
  Proof.
    intros H Hn E. split.
    - specialize (H [ORead n] ltac:(repeat constructor; cbn; lia)). cbn [reader_run reader_step cursor_run cursor_step] in H. rewrite E in H. congruence.
    - intros ops Ho. specialize (H (ORead n :: ops) ltac:(constructor; [cbn; lia|exact Ho])). cbn [reader_run reader_step cursor_run cursor_step] in H. rewrite E in H. congruence.
  Qed.
  Lemma acts_step v d p o : acts_as read seek v d c size p -> op_ok o ->
    let '(d1, v1, r) := reader_step read seek v d o in let '(q, r') := cursor_step c size p o in r = r' /\ acts_as read seek v1 d1 c size q.
  Proof.
    intros H Ho. pose proof (H [o] ltac:(repeat constructor; auto)) as H1. pose proof (fun ops Hops => H (o :: ops) (Forall_cons o Ho Hops)) as H2.
    cbn [reader_run cursor_run] in H1, H2. destruct (reader_step read seek v d o) as [[d1 v1] r]. destruct (cursor_step c size p o) as [q r'].
    split; [congruence|]. intros ops Hops. specialize (H2 ops Hops). congruence.
  Qed.
  Lemma acts_history v d p ops d1 v1 : acts_as read seek v d c size p -> Forall op_ok ops -> reader_exec read seek v d ops = (d1, v1) ->
    exists q, acts_as read seek v1 d1 c size q.
  Proof.
    intros H Ho. revert v d p H. induction Ho as [|o ops Ho _ IH]; intros v d p H E; cbn [reader_exec] in E; [injection E as <- <-; eauto|].
    pose proof (acts_step v d p o H Ho) as S. destruct (reader_step read seek v d o) as [[d2 v2] r]. destruct (cursor_step c size p o) as [q r'].
    exact (IH _ _ _ (proj2 S) E).
  Qed.

  (** Programs. *)
  Lemma conversation_acts prog : (forall seen, op_ok (prog seen)) -> forall n seen v d p, acts_as read seek v d c size p ->
    conversation (reader_of (att_read read) (att_seek seek)) prog n seen (mkAtt d v) = conversation (memory_step c size) prog n seen p.
  Proof.
    intros Hp. induction n as [|n IH]; intros seen v d p H; cbn [conversation]; [reflexivity|].
    pose proof (acts_step v d p (prog seen) H (Hp seen)) as S. unfold reader_of, att_read, att_seek, memory_step. destruct (prog seen) as [k|s]; cbn [reader_step cursor_step at_value at_dev] in *.
    - destruct (read v k d) as [d1 [v1 r]]. destruct S as (Er & S). assert (Er' : r = Ok (ztake k (zdrop p c))) by congruence. rewrite Er'. cbn [ior_of]. apply IH, S.
    - destruct (seek v s d) as [d1 [v1 r]]. destruct ((0 <=? seek_target size p s) && (seek_target size p s <=? U64_MAX)); destruct S as (Er & S);
        (assert (Er' := f_equal (fun x => match x with RPos y => y | _ => Panic end) Er); cbn in Er'; rewrite Er'); cbn [ior_of io_of_err]; apply IH, S.
  Qed.

  Lemma cursor_pos p o : 0 <= p -> op_ok o -> 0 <= fst (cursor_step c size p o).
  Proof.
    intros Hp Ho. destruct o as [n|s]; cbn [cursor_step fst].
    - pose proof (zlen_nonneg (ztake n (zdrop p c))). lia.
    - destruct (0 <=? seek_target size p s) eqn:E; cbn [andb]; [|exact Hp]. destruct (_ <=? U64_MAX); cbn [fst]; lia.
  Qed.
  Lemma acts_history_pos v d p ops d1 v1 : 0 <= p -> acts_as read seek v d c size p -> Forall op_ok ops -> reader_exec read seek v d ops = (d1, v1) ->
    acts_as read seek v1 d1 c size (fold_left (fun q o => fst (cursor_step c size q o)) ops p) /\ 0 <= fold_left (fun q o => fst (cursor_step c size q o)) ops p.
  Proof.
    intros Hp H Ho. revert v d p Hp H. induction Ho as [|o ops Ho _ IH]; intros v d p Hp H E; cbn [reader_exec fold_left] in *; [injection E as <- <-; auto|].
    pose proof (acts_step v d p o H Ho) as S. pose proof (cursor_pos p o Hp Ho) as Hq. destruct (reader_step read seek v d o) as [[d2 v2] r]. destruct (cursor_step c size p o) as [q r'].
    cbn [fst] in *. exact (IH _ _ _ Hq (proj2 S) E).
  Qed.

  (** [read_to_end]. *)
  Lemma read_to_end_acts sizes : (forall i, 1 <= sizes i <= U64_MAX) -> forall fuel i v d p acc, 0 <= p -> acts_as read seek v d c size p -> (length (zdrop p c) < fuel)%nat ->
    exists d1 v1, read_to_end (att_read read) sizes fuel i (mkAtt d v) acc = (mkAtt d1 v1, (acc ++ zdrop p c, IOk tt)) /\ acts_as read seek v1 d1 c size (p + zlen (zdrop p c)).
  Proof.
    intros Hs. induction fuel as [|fuel IH]; intros i v d p acc Hp H Hf; [lia|]. cbn [read_to_end]. unfold att_read at 1. cbn [at_value at_dev].
    destruct (read v (sizes i) d) as [d1 [v1 r]] eqn:E. pose proof (Hs i) as Hi. destruct (acts_read v d p (sizes i) d1 v1 r H ltac:(lia) E) as (Er & H1). rewrite Er. cbn [ior_of].
    destruct (ztake (sizes i) (zdrop p c)) as [|x t] eqn:Et.
    - apply ztake_nonempty in Et; [|lia]. rewrite Et, app_nil_r. change (zlen (@nil Z)) with 0 in *. exists d1, v1. auto.
    - pose proof (zdrop_step (sizes i) p c Hp ltac:(lia)) as Hst. rewrite Et in Hst. set (q := p + zlen (x :: t)) in *.
      assert (Hq : 0 <= q) by (unfold q; pose proof (zlen_nonneg (x :: t)); lia).
      destruct (IH (S i) v1 d1 q (acc ++ x :: t) Hq H1) as (d2 & v2 & E2 & H2).
      { rewrite Hst in Hf. rewrite app_length in Hf. cbn [length] in Hf. lia. }
      exists d2, v2. rewrite E2. rewrite Hst. rewrite <- app_assoc. split; [reflexivity|]. rewrite zlen_app. unfold q in *. rewrite Z.add_assoc. exact H2.
  Qed.

  (** [read_exact] of the standard library. *)
  Lemma std_read_exact_acts : forall fuel n v d p acc, 0 <= p -> n <= U64_MAX -> acts_as read seek v d c size p -> (Z.to_nat n <= fuel)%nat ->
    exists d1 v1 r, std_read_exact (att_read read) fuel (mkAtt d v) n acc = (mkAtt d1 v1, r) /\
      (n <= zlen (zdrop p c) -> r = IOk (acc ++ ztake n (zdrop p c)) /\ acts_as read seek v1 d1 c size (p + Z.max 0 n)) /\
      (zlen (zdrop p c) < n -> r = IErr (IoKind UnexpectedEof)).
  Proof.
    induction fuel as [|fuel IH]; intros n v d p acc Hp Hn H Hf; cbn [std_read_exact]; destruct (n <=? 0) eqn:E0; try lia.
    1,2: (exists d, v; eexists; split; [reflexivity|]; split; [|pose proof (zlen_nonneg (zdrop p c)); lia]; intros _; rewrite (ztake_0 n) by lia; rewrite app_nil_r; split; [reflexivity|];
      replace (p + Z.max 0 n) with p by lia; exact H).
    unfold att_read at 1. cbn [at_value at_dev]. destruct (read v n d) as [d1 [v1 r]] eqn:E. destruct (acts_read v d p n d1 v1 r H ltac:(lia) E) as (Er & H1). rewrite Er. cbn [ior_of].
    destruct (ztake n (zdrop p c)) as [|x t] eqn:Et.
    - apply ztake_nonempty in Et; [|lia]. rewrite Et. exists d1, v1; eexists; split; [reflexivity|]. change (zlen (@nil Z)) with 0. split; [lia|reflexivity].
    - pose proof (zdrop_step n p c Hp ltac:(lia)) as Hst. rewrite Et in Hst. set (q := p + zlen (x :: t)) in *.
      assert (Hx : 1 <= zlen (x :: t)) by (rewrite zlen_cons; pose proof (zlen_nonneg t); lia).
      assert (Hxn : zlen (x :: t) = Z.min n (zlen (zdrop p c))) by (rewrite <- Et, zlen_ztake; pose proof (zlen_nonneg (zdrop p c)); lia).
      destruct (IH (n - zlen (x :: t)) v1 d1 q (acc ++ x :: t) ltac:(unfold q; lia) ltac:(lia) H1 ltac:(lia)) as (d2 & v2 & r2 & E2 & A & B).
      exists d2, v2, r2. split; [exact E2|]. assert (Hl : zlen (zdrop p c) = zlen (x :: t) + zlen (zdrop q c)) by (rewrite Hst, zlen_app; reflexivity). split.
      + intros Hle. destruct (A ltac:(lia)) as (A1 & A2). split.
        * rewrite A1. rewrite (ztake_0 (n - zlen (x :: t))) by lia. rewrite app_nil_r. reflexivity.
        * replace (p + Z.max 0 n) with (q + Z.max 0 (n - zlen (x :: t))) by (unfold q; lia). exact A2.
      + intros Hlt. apply B. lia.
  Qed.
End Acts.

(** With faults of the device. *)
Lemma without_faults_img d : d_img (without_faults d) = d_img d.
Proof. reflexivity. Qed.
Lemma read_to_end_faults k c size sizes : (forall i, 1 <= sizes i <= U64_MAX) -> forall fuel i v d p acc, ~ reports d Interrupted -> 0 <= p ->
  acts_as (av_read k) (av_seek k) v (without_faults d) c size p -> (length (zdrop p c) < fuel)%nat ->
  exists o bs r, read_to_end (att_read (av_read k)) sizes fuel i (mkAtt d v) acc = (o, (acc ++ bs, r)) /\
    (r = IOk tt /\ bs = zdrop p c \/ (exists e, reports d e /\ r = IErr (IoKind e)) /\ begins bs (zdrop p c)).
Proof.
  intros Hs. induction fuel as [|fuel IH]; intros i v d p acc Hn Hp H Hf; [lia|]. cbn [read_to_end]. unfold att_read at 1. cbn [at_value at_dev].
  pose proof (av_read_honest d Hn k v (sizes i)) as Ho. unfold honest_value, honest in Ho. destruct (av_read k v (sizes i) d) as [d1 [v1 r]] eqn:E.
  destruct (av_read k v (sizes i) (without_faults d)) as [e1 [v1' r']] eqn:E'. destruct Ho as (Hi & Hk & Ho).
  pose proof (Hs i) as Hsi. destruct (acts_read (av_read k) (av_seek k) c size v (without_faults d) p (sizes i) e1 v1' r' H ltac:(lia) E') as (Er & H1).
  destruct Ho as [(Eb & Ee & _)|((e & He & Hr) & _)].
  - injection Eb as <- <-. subst e1. rewrite Er. cbn [ior_of]. destruct (ztake (sizes i) (zdrop p c)) as [|x t] eqn:Et.
    + apply ztake_nonempty in Et; [|lia]. rewrite Et. eexists _, [], _. rewrite app_nil_r. split; [reflexivity|]. left. auto.
    + pose proof (zdrop_step (sizes i) p c Hp ltac:(lia)) as Hst. rewrite Et in Hst. set (q := p + zlen (x :: t)) in *.
      assert (Hq : 0 <= q) by (unfold q; pose proof (zlen_nonneg (x :: t)); lia).
      destruct (IH (S i) v1 d1 q (acc ++ x :: t) ltac:(auto) Hq H1) as (o & bs & r2 & E2 & H2).
      { rewrite Hst, app_length in Hf. cbn [length] in Hf. lia. }
      exists o, ((x :: t) ++ bs), r2. rewrite E2, <- app_assoc. split; [reflexivity|]. rewrite Hst. destruct H2 as [(-> & ->)|((e & He & ->) & (t' & Ht'))].
      * left. auto.
      * right. split; [exists e; auto|]. exists t'. rewrite <- app_assoc. f_equal. exact Ht'.
  - cbn [snd] in Hr. subst r. cbn [ior_of io_of_err io_kind]. exists (mkAtt d1 v1), [], (IErr (IoKind e)). rewrite app_nil_r. split.
    + destruct e; try reflexivity. destruct (Hn He).
    + right. split; [eauto|]. exists (zdrop p c). reflexivity.
Qed.

(** Any content: it ends. *)
Definition av_whole (v : aval) : Prop := av_ok v /\ forall l, v = AVList l -> ss_size (lv_ss l) = lv_len l.
Definition left (v : aval) : nat := Z.to_nat (av_len v - av_stream_position v).
Lemma settles_and {A} (F : nat -> A) (P Q : A -> Prop) : settles F P -> (forall k, Q (F k)) -> settles F (fun x => P x /\ Q x).
Proof. intros (N & x & Hx & H) HQ. exists N, x. split; [split; [exact Hx|]|exact H]. rewrite <- (H N ltac:(lia)). apply HQ. Qed.
Lemma read_to_end_settles sizes : (forall i, 1 <= sizes i) -> forall g v d i acc, av_whole v -> dev_ok d -> (left v + events d < g)%nat ->
  settles (fun k => read_to_end (att_read (av_read k)) sizes g i (mkAtt d v) acc) (fun y => snd (snd y) <> IOutOfFuel).
Proof.
  intros Hs. induction g as [|g IH]; intros v d i acc (Hv & Hl) Hd Hm; [lia|]. cbn [read_to_end].
  unfold att_read at 1. cbn [at_value at_dev]. pose proof (Hs i) as Hi.
  pose proof (settles_and _ _ (fun y => let '(d', (v', x)) := y in (forall l, v' = AVList l -> ss_size (lv_ss l) = lv_len l) /\
    moves (av_stream_position v) (av_stream_position v') (av_len v) (av_len v') (sizes i) x) (av_freads v (sizes i) d Hv Hd)) as Hr.
  lapply Hr; clear Hr.
  2: { intros k. destruct (av_read k v (sizes i) d) as [d' [v' x]] eqn:E. exact (av_read_moves k v (sizes i) d d' v' x ltac:(lia) Hl E). }
  intros Hr.
  refine (settles_ext _ _ _ (settles_bind (fun k => av_read k v (sizes i) d) _ (fun k y => match (let '(d0, (v0, r)) := y in (mkAtt d0 v0, ior_of r)) with
        | (o1, IOk []) => (o1, (acc, IOk tt))
        | (o1, IOk bs) => read_to_end (att_read (av_read k)) sizes g (S i) o1 (acc ++ bs)
        | (o1, IErr x) => match io_kind x with Interrupted => read_to_end (att_read (av_read k)) sizes g (S i) o1 acc | _ => (o1, (acc, IErr x)) end
        | (o1, IPanic) => (o1, (acc, IPanic))
        | (o1, IOutOfFuel) => (o1, (acc, IOutOfFuel))
        end) _ Hr _) _); [|reflexivity].
  clear Hr. intros (d1 & v1 & x) ((E1 & I1 & C1 & Q1) & (L1 & M1)). pose proof (evolves_events _ _ E1) as Ev. pose proof (dev_ok_evolves _ _ E1 Hd) as Hd1.
  destruct M1 as (M0 & M1). destruct x as [bs|e| |]; cbn [ior_of].
  - destruct bs as [|b t]; [apply settles_const; cbn; discriminate|]. apply IH; [split; auto|exact Hd1|].
    destruct M1 as (M2 & M3 & [M4|M4]); [discriminate|]. unfold left in *. rewrite zlen_cons in *. pose proof (zlen_nonneg t). lia.
  - assert (Hk : e = EIo Interrupted \/ e <> EIo Interrupted) by (destruct e; try (right; discriminate); destruct k; try (right; discriminate); now left).
    destruct Hk as [->|Hk].
    + cbn [io_of_err io_kind]. apply IH; [split; auto|exact Hd1|]. cbn in C1. unfold left in *. lia.
    + apply (settles_ext (fun _ => (mkAtt d1 v1, (acc, IErr (io_of_err e))))); [apply settles_const; cbn; discriminate|].
      intros k. destruct e; try reflexivity. destruct k0; try reflexivity. congruence.
  - apply settles_const; cbn; discriminate.
  - destruct C1.
Qed.

Lemma attr_value_whole nt a d d1 v : nt_good nt -> attr_ok a -> dev_ok d -> attr_value nt a d = (d1, Ok v) -> av_whole v /\ dev_ok d1.
Proof.
  intros Hn Ha Hd E. pose proof (attr_value_calm nt a d Hn Ha Hd) as C. rewrite E in C. destruct C as (Ev & _ & C). split; [|exact (dev_ok_evolves _ _ Ev Hd)].
  split; [exact (C v eq_refl)|]. intros l ->. unfold attr_value in E. destruct (at_entries a) as [l0|].
  - unfold mbind, mlift in E. destruct (attr_nr_data_size a) as [size|e| |]; try discriminate. destruct (attr_instance a) as [inst|e| |]; try discriminate.
    destruct (attr_ty a) as [ty|e| |]; try discriminate. destruct (lv_new nt l0 inst ty size d) as [d2 [w|e| |]] eqn:El; try discriminate. cbn in E. injection E as _ <-.
    apply (lv_new_size _ _ _ _ _ _ _ _ El).
  - unfold mbind, mlift in E. destruct (attr_value_simple _ a); try discriminate.
Qed.
(** Streams of files of any volume. *)
Lemma stream_to_end nt f d stream sizes : opened nt -> file_read_from nt f -> bytes_ok (d_img d) -> (forall i, 1 <= sizes i) ->
  settles (fun k => file_data k nt f stream d) (fun y => snd y <> OutOfFuel /\ forall i a, snd y = Ok (Some i) -> item_to_attribute i = Ok a ->
    forall d2 d3 v, bytes_ok (d_img d2) -> attr_value nt a d2 = (d3, Ok v) ->
    exists G, forall g, (G <= g)%nat -> settles (fun k => read_to_end (att_read (av_read k)) sizes g 0 (attach v d3) []) (fun y => snd (snd y) <> IOutOfFuel)).
Proof.
  intros Hn Hf Hd Hs. pose proof (opened_good _ Hn) as Hg. pose proof (file_read_ok _ _ Hn Hf) as Hok.
  eapply settles_impl; [exact (file_data_fm nt f stream Hg Hok d Hd)|]. intros y Hy. split; [exact (mpost_ends _ _ _ Hy)|].
  intros i a Ei Ea d2 d3 v Hd2 Ev. destruct y as [d1 x]. destruct Hy as (_ & _ & Q). cbn in Ei. pose proof (Q _ Ei i eq_refl) as Hi.
  destruct (item_to_attribute_calm i Hi) as (_ & Ha). destruct (attr_value_whole nt a d2 d3 v Hg (Ha a Ea) Hd2 Ev) as (Hv & Hd3).
  exists (S (left v + events d3)). intros g Hgg. apply read_to_end_settles; auto; lia.
Qed.

(** Values that act as a cursor. *)
Lemma refines_acts {V} read seek (I : V -> Prop) posf good c size v d :
  refines read seek I posf good c size -> I v -> good d -> acts_as read seek v d c size (posf v).
Proof. intros R Hi Hg ops Ho. eapply refines_history; eauto. Qed.

Lemma attribute_acts nt img f o bs d : bytes_ok (f_data f) -> 0 <= o -> attr_fits (f_data f) o -> attr_content (cluster_size nt) img (f_data f) o bs ->
  faultless d -> d_img d = img ->
  exists v, attr_value nt (mkAttr f o None) d = (d, Ok v) /\ av_len v = zlen bs /\ forall k, acts_as (av_read k) (av_seek k) v d bs (zlen bs) 0.
Proof.
  intros Hb Ho Hf Hc Hd Hi. destruct (attr_content_value _ _ _ _ None _ Hb Ho Hf Hc) as (v & Ev & Hv). exists (AVSimple v).
  destruct (value_of_reads _ _ _ _ Hv) as (Hl & _ & Hp & I & HI & R). split; [|split; [exact Hl|]].
  - unfold attr_value, mbind, mlift. cbn [at_entries]. rewrite Ev. reflexivity.
  - intros k. pose proof (refines_map AVSimple _ _ _ _ _ _ _ (av_read k) (av_seek k) av_stream_position R ltac:(reflexivity) ltac:(reflexivity) ltac:(reflexivity)) as R'.
    rewrite <- Hp. change (sv_stream_position v) with (av_stream_position (AVSimple v)). eapply refines_acts; [exact R'|exists v; split; [reflexivity|exact HI]|split; auto].
Qed.
Lemma list_acts nt a img l size d : value_reads_as nt a img l size -> faultless d -> d_img d = img ->
  exists d1 v, attr_value nt a d = (d1, Ok v) /\ av_len v = size /\
    forall k, (length (d_reads d1) + 2 * length l + 2 <= k)%nat -> acts_as (av_read k) (av_seek k) v d1 (file_content (cluster_size nt) img l size) size 0.
Proof.
  intros H Hd Hi. destruct (H d Hd Hi) as (d1 & v & E & Hl & _ & _ & Hr). exists d1, v. split; auto. split; auto. intros k Hk ops Ho.
  destruct (Hr k Hk) as (Hr1 & _). auto.
Qed.
Lemma error_kinds e : (io_kind (io_of_err e) = Interrupted <-> e = EIo Interrupted) /\ (forall e', io_of_err e = io_of_err e' -> e = e') /\
  (forall k, io_of_err e = IoKind k <-> e = EIo k).
Proof.
  split; [|split].
  - split; [|now intros ->]. destruct e; cbn; congruence.
  - intros e'. destruct e, e'; cbn; congruence.
  - intros k. split; [destruct e; cbn; congruence|now intros ->].
Qed.
