(** * Length, emptiness and data position of attached values. *)
From Verif Require Import Base Dev Types Record DataRuns Stream NonResident Resident Attribute File AttrList Attached
  Spec SpecValues SpecAttrList SpecAttached BaseProofs ReadLenProofs AttachedProofs.

Section Keep.
  Context {S : Type} (o : stream_ops S) (L : S -> Z).
  Context (Hset : forall s x, ss_size x = ss_size (so_ss o s) -> L (so_set o s x) = L s)
          (Hadv : forall s d d' s' x, so_advance o s d = (d', (s', x)) -> L s' = L s)
          (Hrew : forall s d d' s' x, so_rewind o s d = (d', (s', x)) -> L s' = L s).

  Lemma read_data_run_size s n d d' s' x : ss_read_data_run s n d = (d', (s', x)) -> ss_size s' = ss_size s.
  Proof.
    unfold ss_read_data_run. destruct (ss_run s) as [r|]; [|intros [= <- <- <-]; auto]. destruct (_ <=? _); [intros [= <- <- <-]; auto|].
    destruct (_ =? 0); [intros [= <- <- <-]; auto|]. destruct (run_read _ _ _) as [d1 [r1 [bs|e| |]]]; intros [= <- <- <-]; auto.
  Qed.
  Lemma seek_data_run_size s b left s' left' x : ss_seek_data_run s b left = (s', left', x) -> ss_size s' = ss_size s.
  Proof.
    unfold ss_seek_data_run. destruct (ss_run s) as [r|]; [|intros [= <- <- <-]; auto]. destruct (_ <? _); [|intros [= <- <- <-]; auto].
    destruct (run_seek _ _) as [r1 y]. intros [= <- <- <-]. auto.
  Qed.
  Lemma read_loop_len fuel : forall s n acc d d' s' x, stream_read_loop o fuel s n acc d = (d', (s', x)) -> L s' = L s.
  Proof.
    induction fuel as [|fuel IH]; intros s n acc d d' s' x; cbn [stream_read_loop]; destruct (n <=? zlen acc); try (intros [= <- <- <-]; auto; fail).
    destruct (ss_read_data_run _ _ d) as [d1 [ss1 y]] eqn:E1. pose proof (Hset s ss1 (read_data_run_size _ _ _ _ _ _ E1)) as H1.
    destruct y as [[|b bs]|e| |]; try (intros [= <- <- <-]; auto; fail).
    - destruct (so_advance _ _ d1) as [d2 [s2 y]] eqn:E. pose proof (Hadv _ _ _ _ _ E) as H2.
      destruct y as [[|]|e| |]; try (intros [= <- <- <-]; congruence). intros H. apply IH in H. congruence.
    - intros H. apply IH in H. congruence.
  Qed.
  Lemma seek_loop_len fuel : forall s b left d d' s' x, stream_seek_loop o fuel s b left d = (d', (s', x)) -> L s' = L s.
  Proof.
    induction fuel as [|fuel IH]; intros s b left d d' s' x; cbn [stream_seek_loop]; destruct (left <=? 0); try (intros [= <- <- <-]; auto; fail).
    destruct (ss_seek_data_run _ b left) as [[ss1 left1] y] eqn:E1. pose proof (Hset s ss1 (seek_data_run_size _ _ _ _ _ _ E1)) as H1.
    destruct y as [[|]|e| |]; try (intros [= <- <- <-]; auto; fail).
    destruct (so_advance _ _ d) as [d2 [s2 y]] eqn:E. pose proof (Hadv _ _ _ _ _ E) as H2.
    destruct y as [[|]|e| |]; try (intros [= <- <- <-]; congruence).
    - intros H. apply IH in H. congruence.
    - intros [= <- <- <-]. rewrite Hset by reflexivity. congruence.
  Qed.
  Lemma seek_finish_len pos r d' s' x : stream_seek_finish o pos r = (d', (s', x)) -> L s' = L (fst (snd r)).
  Proof.
    destruct r as [d [s [u|e| |]]]; cbn [stream_seek_finish fst snd]; try (intros [= <- <- <-]; auto; fail).
    destruct pos as [n|n|n]; [| |destruct (_ <? _)]; intros [= <- <- <-]; auto; now apply Hset.
  Qed.
  Lemma seek_len fuel s len pos d d' s' x : stream_seek o fuel s len pos d = (d', (s', x)) -> L s' = L s.
  Proof.
    unfold stream_seek. destruct (optimize_seek _ _ _) as [[n|n|n]|e| |]; try (intros [= <- <- <-]; auto; fail).
    - destruct (so_rewind o s d) as [d1 [s1 y]] eqn:E. pose proof (Hrew _ _ _ _ _ E) as H1. destruct y as [u|e| |]; try (intros [= <- <- <-]; auto; fail).
      destruct (stream_seek_loop o fuel s1 true n d1) as [d2 [s2 y]] eqn:E2. intros H. apply seek_finish_len in H. cbn [fst snd] in H. apply seek_loop_len in E2. congruence.
    - destruct (0 <=? n); [|intros [= <- <- <-]; auto].
      destruct (stream_seek_loop o fuel s false n d) as [d2 [s2 y]] eqn:E2. intros H. apply seek_finish_len in H. cbn [fst snd] in H. apply seek_loop_len in E2. congruence.
  Qed.
End Keep.

Lemma nr_next_len v v' x : nr_next_data_run v = (v', x) -> nr_len v' = nr_len v.
Proof. unfold nr_next_data_run. destruct (druns_next _ _ _ _) as [s' [[r|e| |]|]]; intros [= <- <-]; reflexivity. Qed.
Lemma nr_rewind_len v v' x : nr_rewind v = (v', x) -> nr_len v' = nr_len v.
Proof.
  unfold nr_rewind. destruct (nr_next_data_run _) as [v1 y] eqn:E. apply nr_next_len in E. destruct y; intros [= <- <-]; exact E.
Qed.
Lemma nr_read_len v n d d' v' x : nr_read v n d = (d', (v', x)) -> nr_len v' = nr_len v.
Proof.
  apply (read_loop_len nr_ops nr_len); [intros s y H; exact H|]. cbn. intros s e e' s' y H. apply (nr_next_len s s' y). congruence.
Qed.
Lemma nr_seek_len v n d d' v' x : nr_seek v n d = (d', (v', x)) -> nr_len v' = nr_len v.
Proof.
  apply (seek_len nr_ops nr_len); [intros s y H; exact H| |]; cbn; intros s e e' s' y H; [apply (nr_next_len s s' y)|apply (nr_rewind_len s s' y)]; congruence.
Qed.
Lemma lv_rewind_len v d d' v' x : lv_rewind v d = (d', (v', x)) -> lv_len v' = lv_len v.
Proof.
  unfold lv_rewind. destruct (lv_next_attribute _ d) as [d1 [v1 y]] eqn:E. apply lv_next_attribute_pos in E. destruct E as (_ & _ & E).
  unfold lv_len. destruct y; intros [= <- <- <-]; exact E.
Qed.
Lemma lv_read_len k v n d d' v' x : lv_read k v n d = (d', (v', x)) -> lv_len v' = lv_len v.
Proof. apply (read_loop_len lv_ops lv_len); [reflexivity|]. intros s e e' s' y H. apply lv_advance_pos in H. apply H. Qed.
Lemma lv_seek_len k v n d d' v' x : lv_seek k v n d = (d', (v', x)) -> lv_len v' = lv_len v.
Proof.
  apply (seek_len lv_ops lv_len); [reflexivity| |]; intros s e e' s' y H; [apply lv_advance_pos in H; apply H|exact (lv_rewind_len _ _ _ _ _ H)].
Qed.
Lemma res_read_len v n d d' v' x : res_read v n d = (d', (v', x)) -> res_len v' = res_len v.
Proof. unfold res_read. destruct (_ =? 0); [intros [= <- <- <-]; auto|]. destruct (idx_range _ _ _); intros [= <- <- <-]; reflexivity. Qed.
Lemma res_seek_len v n d d' v' x : res_seek v n d = (d', (v', x)) -> res_len v' = res_len v.
Proof. unfold res_seek. destruct (seek_contiguous _ _ _) as [q y]. intros [= <- <- <-]. reflexivity. Qed.

Lemma av_read_len k v n d d' v' x : av_read k v n d = (d', (v', x)) -> av_len v' = av_len v.
Proof.
  destruct v as [[r|r]|l]; cbn [av_read sv_read].
  - destruct (res_read r n d) as [d1 [r1 y]] eqn:E. intros [= <- <- <-]. exact (res_read_len _ _ _ _ _ _ E).
  - destruct (nr_read r n d) as [d1 [r1 y]] eqn:E. intros [= <- <- <-]. exact (nr_read_len _ _ _ _ _ _ E).
  - destruct (lv_read k l n d) as [d1 [r1 y]] eqn:E. intros [= <- <- <-]. exact (lv_read_len _ _ _ _ _ _ _ E).
Qed.
Lemma av_seek_len k v n d d' v' x : av_seek k v n d = (d', (v', x)) -> av_len v' = av_len v.
Proof.
  destruct v as [[r|r]|l]; cbn [av_seek sv_seek].
  - destruct (res_seek r n d) as [d1 [r1 y]] eqn:E. intros [= <- <- <-]. exact (res_seek_len _ _ _ _ _ _ E).
  - destruct (nr_seek r n d) as [d1 [r1 y]] eqn:E. intros [= <- <- <-]. exact (nr_seek_len _ _ _ _ _ _ E).
  - destruct (lv_seek k l n d) as [d1 [r1 y]] eqn:E. intros [= <- <- <-]. exact (lv_seek_len _ _ _ _ _ _ _ E).
Qed.

Lemma after_len k ops : forall a, att_len (after (reader_of (att_read (av_read k)) (att_seek (av_seek k))) ops a) = att_len a.
Proof.
  unfold after. induction ops as [|c ops IH]; intros a; cbn [fold_left]; [reflexivity|]. rewrite IH. unfold att_len, reader_of, att_read, att_seek. destruct c as [n|s].
  - destruct (av_read k (at_value a) n (at_dev a)) as [d1 [v1 r]] eqn:E. cbn [fst at_value]. exact (av_read_len _ _ _ _ _ _ _ E).
  - destruct (av_seek k (at_value a) s (at_dev a)) as [d1 [v1 r]] eqn:E. cbn [fst at_value]. exact (av_seek_len _ _ _ _ _ _ _ E).
Qed.
Lemma after_exec {V} read seek ops : forall (v : V) d, detach (after (reader_of (att_read read) (att_seek seek)) ops (attach v d)) = reader_exec read seek v d ops.
Proof.
  unfold after, attach. induction ops as [|c ops IH]; intros v d; cbn [fold_left reader_exec]; [reflexivity|]. unfold reader_of at 2, att_read, att_seek, reader_step. cbn [at_value at_dev].
  destruct c as [n|s]; [destruct (read v n d) as [d1 [v1 r]]|destruct (seek v s d) as [d1 [v1 r]]]; cbn [fst]; apply IH.
Qed.

Lemma attached_length nt img f o bs d : bytes_ok (f_data f) -> 0 <= o -> attr_fits (f_data f) o -> attr_content (cluster_size nt) img (f_data f) o bs ->
  faultless d -> d_img d = img ->
  exists v, attr_value nt (mkAttr f o None) d = (d, Ok v) /\
    forall k d' ops, let a := after (reader_of (att_read (av_read k)) (att_seek (av_seek k))) ops (attach v d') in
    att_len a = zlen bs /\ (att_is_empty a = true <-> bs = []).
Proof.
  intros Hb Ho Hf Hc Hd Hi. destruct (attribute_acts nt img f o bs d Hb Ho Hf Hc Hd Hi) as (v & Ev & Hl & _). exists v. split; auto.
  intros k d' ops a. assert (E : att_len a = zlen bs) by (unfold a; rewrite after_len; exact Hl). split; auto.
  unfold att_is_empty. rewrite E, Z.eqb_eq. unfold zlen. split; [destruct bs; cbn [length]; [auto|lia]|now intros ->].
Qed.
Lemma attached_listed nt a img l size d : value_reads_as nt a img l size -> faultless d -> d_img d = img ->
  exists d1 v, attr_value nt a d = (d1, Ok v) /\
    (forall k d' ops, let b := after (reader_of (att_read (av_read k)) (att_seek (av_seek k))) ops (attach v d') in
       att_len b = size /\ (att_is_empty b = true <-> size = 0)) /\
    forall k ops sf b2 q, (length (d_reads d1) + 2 * length l + 2 <= k)%nat -> Forall op_ok ops -> seek_arg_ok sf ->
      let b := after (reader_of (att_read (av_read k)) (att_seek (av_seek k))) ops (attach v d1) in
      let p := av_stream_position (snd (detach b)) in
      att_seek (av_seek k) b sf = (b2, IOk q) -> q <> p -> p < size \/ q < p -> att_data_position b2 = disk_position (cluster_size nt) l q.
Proof.
  intros H Hd Hi. destruct (H d Hd Hi) as (d1 & v & Ev & Hl & _ & _ & Hr). exists d1, v. split; auto. split.
  - intros k d' ops b. assert (E : att_len b = size) by (unfold b; rewrite after_len; exact Hl). split; auto. unfold att_is_empty. rewrite E. apply Z.eqb_eq.
  - intros k ops sf b2 q Hk Ho Hs b p E Hq Hp. destruct (Hr k Hk) as (_ & Hr2).
    pose proof (after_exec (av_read k) (av_seek k) ops v d1) as Ex. fold b in Ex. unfold p, detach in *. cbn [snd] in *.
    unfold att_seek in E. destruct (av_seek k (at_value b) sf (at_dev b)) as [d3 [v3 r]] eqn:Es. destruct r as [q'|e| |]; cbn [ior_of] in E; try discriminate E.
    assert (Eb : b2 = mkAtt d3 v3 /\ q' = q) by (split; congruence). destruct Eb as (-> & ->). unfold att_data_position. cbn [at_value].
    exact (Hr2 ops (at_dev b) (at_value b) sf d3 v3 q Ho (eq_sym Ex) Hs Es Hq Hp).
Qed.
