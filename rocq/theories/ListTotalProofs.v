(** * Proofs for C55: operations on files of any content terminate, with attribute lists. *)
From Coq Require Import Lia Wf_nat.
From Verif Require Import Base Dev Types Record DataRuns Stream NonResident Resident BootSector Attribute File Structured AttrList Upcase Guid Spec SpecTotal BaseProofs DataRunsProofs DevProofs
  StreamProofs NonResidentProofs EvolveProofs IndexRecordProofs TerminationProofs ReadLenProofs RecordProofs FileProofs.

(** ** Results that settle as the fuel grows *)
Lemma settles_const {A} (x : A) (P : A -> Prop) : P x -> settles (fun _ => x) P.
Proof. intros H. exists 0%nat, x. auto. Qed.
Lemma settles_bind {A B} (F : nat -> A) (P : A -> Prop) (G : nat -> A -> B) (Q : B -> Prop) :
  settles F P -> (forall x, P x -> settles (fun k => G k x) Q) -> settles (fun k => G k (F k)) Q.
Proof.
  intros (N & x & Hx & H) HG. destruct (HG x Hx) as (M & y & Hy & H2). exists (N + M)%nat, y. split; auto.
  intros k Hk. rewrite H by lia. apply H2. lia.
Qed.
Lemma settles_S {A} (F : nat -> A) (P : A -> Prop) : settles (fun k => F (S k)) P -> settles F P.
Proof. intros (N & x & Hx & H). exists (S N), x. split; auto. intros [|k] Hk; [lia|]. apply H. lia. Qed.
Lemma settles_ext {A} (F G : nat -> A) (P : A -> Prop) : settles F P -> (forall k, F k = G k) -> settles G P.
Proof. intros (N & x & Hx & H) E. exists N, x. split; auto. intros k Hk. rewrite <- E. auto. Qed.
Lemma settles_impl {A} (F : nat -> A) (P Q : A -> Prop) : settles F P -> (forall x, P x -> Q x) -> settles F Q.
Proof. intros (N & x & Hx & H) E. exists N, x. split; auto. Qed.
Lemma settles_map {A B} (F : nat -> A) (g : A -> B) (P : A -> Prop) (Q : B -> Prop) :
  settles F P -> (forall x, P x -> Q (g x)) -> settles (fun k => g (F k)) Q.
Proof. intros (N & x & Hx & H) E. exists N, (g x). split; auto. intros k Hk. rewrite H; auto. Qed.

(** ** Pure code neither runs out of fuel nor is it interrupted *)
Definition calm {A} (x : res A) : Prop := match x with OutOfFuel => False | Err (EIo Interrupted) => False | _ => True end.
(** With the device: an interruption consumes an event. *)
Definition calmd {A} (d d' : dev) (x : res A) : Prop :=
  match x with OutOfFuel => False | Err (EIo Interrupted) => (events d' < events d)%nat | _ => True end.

Lemma calm_bind {A B} (m : res A) (k : A -> res B) : calm m -> (forall a, m = Ok a -> calm (k a)) -> calm (rbind m k).
Proof. intros H1 H2. destruct m as [a|e| |]; cbn in *; auto. Qed.
Lemma calm_calmd {A} d d' (x : res A) : calm x -> calmd d d' x.
Proof. unfold calm, calmd. destruct x as [|[]| |]; try tauto. destruct k; tauto. Qed.
Lemma calmd_err {A B} d d' (e : err) : @calmd A d d' (Err e) -> @calmd B d d' (Err e).
Proof. auto. Qed.
Lemma calm_err {A B} (e : err) : @calm A (Err e) -> @calm B (Err e).
Proof. auto. Qed.
Lemma calmd_trans {A} d d1 d2 (x : res A) : evolves d d1 -> calmd d1 d2 x -> calmd d d2 x.
Proof. intros H. apply evolves_events in H. unfold calmd. destruct x as [|[]| |]; auto. destruct k; auto. lia. Qed.
Lemma calmd_trans2 {A} d d1 d2 (x : res A) : evolves d1 d2 -> calmd d d1 x -> calmd d d2 x.
Proof. intros H. apply evolves_events in H. unfold calmd. destruct x as [|[]| |]; auto. destruct k; auto. lia. Qed.
Lemma calmd_fine {A} d d' (x : res A) : fine false x -> (x = Err (EIo Interrupted) -> (events d' < events d)%nat) -> calmd d d' x.
Proof. intros H1 H2. unfold calmd. destruct x as [|[]| |]; cbn in *; auto. destruct k; auto. Qed.
Lemma calm_fine {A} (x : res A) : fine false x -> x <> Err (EIo Interrupted) -> calm x.
Proof. intros H1 H2. unfold calm. destruct x as [|[]| |]; cbn in *; auto. destruct k; auto. Qed.

Ltac calm1 :=
  first
    [ exact Logic.I
    | assumption
    | match goal with
      | |- calm (Ok _) => exact Logic.I
      | |- calm (Err _) => exact Logic.I
      | |- calm (rbind _ _) => apply calm_bind; [|intros ? ?]
      | |- calm (if ?c then _ else _) => destruct c
      | |- calm (match ?o with Some _ => _ | None => _ end) => destruct o
      end ].
Lemma calm_rd n l o : calm (rd n l o).
Proof. unfold rd. repeat calm1. Qed.
Lemma calm_idx l a b : calm (idx_range l a b).
Proof. unfold idx_range. repeat calm1. Qed.
Global Hint Resolve calm_rd calm_idx : calm.
Ltac calmt := repeat (cbv zeta; first [calm1 | solve [auto with calm]]).

Lemma calm_attr_rd n a o : calm (attr_rd n a o).
Proof. apply calm_rd. Qed.
Global Hint Resolve calm_attr_rd : calm.
Lemma calm_attr_length a : calm (attr_length a). Proof. apply calm_rd. Qed.
Lemma calm_attr_instance a : calm (attr_instance a). Proof. apply calm_rd. Qed.
Lemma calm_attr_is_resident a : calm (attr_is_resident a). Proof. unfold attr_is_resident. calmt. Qed.
Lemma calm_attr_ty a : calm (attr_ty a). Proof. unfold attr_ty. calmt. Qed.
Global Hint Resolve calm_attr_length calm_attr_instance calm_attr_is_resident calm_attr_ty : calm.
Lemma calm_attr_new f o e : calm (attr_new f o e). Proof. unfold attr_new, attr_validate_length. calmt. Qed.
Global Hint Resolve calm_attr_new : calm.
Lemma calm_ensure a ty : calm (attr_ensure_ty a ty). Proof. unfold attr_ensure_ty. calmt. Qed.
Lemma calm_attr_name a : calm (attr_name a).
Proof. unfold attr_name, attr_validate_name, attr_name_offset, attr_name_length. calmt. Qed.
Global Hint Resolve calm_ensure calm_attr_name : calm.
Lemma calm_attr_matches a ty n i : calm (attr_matches a ty n i). Proof. unfold attr_matches. calmt. Qed.
Lemma calm_resident_value a : calm (attr_resident_value a).
Proof. unfold attr_resident_value, attr_validate_resident, attr_resident_value_offset, attr_resident_value_length. calmt. Qed.
Lemma calm_nr_data a : calm (attr_nr_data_and_position a). Proof. unfold attr_nr_data_and_position, attr_nr_runs_offset. calmt. Qed.
Lemma calm_value_length a : calm (attr_value_length a). Proof. unfold attr_value_length, attr_resident_value_length, attr_nr_data_size. calmt. Qed.
Global Hint Resolve calm_attr_matches calm_resident_value calm_nr_data calm_value_length : calm.
Lemma calm_lv_attr_runs a : calm (lv_attr_runs a). Proof. unfold lv_attr_runs. calmt. Qed.
Lemma calm_le_ty e : calm (le_ty e). Proof. unfold le_ty. calmt. Qed.
Global Hint Resolve calm_lv_attr_runs calm_le_ty : calm.

(** ** File records *)
Lemma get_range_bytes l a b s : bytes_ok l -> get_range l a b = Some s -> bytes_ok s.
Proof. unfold get_range. intros H. destruct (_ && _); [|discriminate]. intros [= <-]. now apply bytes_ok_slice. Qed.
Lemma rd_bound n l o x : bytes_ok l -> 0 <= n -> rd n l o = Ok x -> 0 <= x < 256 ^ n.
Proof.
  intros Hl Hn. unfold rd, get_range. destruct (_ && _) eqn:E; [|discriminate]. intros [= <-].
  split; [apply (field_nonneg n l o Hl)|apply (field_bound n l o Hl Hn)].
Qed.

Lemma fixup_loop_calm n : forall usn p a s data, bytes_ok data -> calm (snd (fixup_loop n usn p a s data)) /\ bytes_ok (fst (fixup_loop n usn p a s data)).
Proof.
  induction n as [|n IH]; intros usn p a s data Hd; cbn [fixup_loop]; [split; [exact Logic.I|exact Hd]|].
  unfold idx_range. destruct (get_range data a (a + 2)) as [nb|] eqn:E1; [|split; [exact Logic.I|exact Hd]].
  destruct (get_range data s (s + 2)) as [ob|] eqn:E2; [|split; [exact Logic.I|exact Hd]].
  destruct (negb _); [split; [exact Logic.I|exact Hd]|]. apply IH. unfold update_range. rewrite !bytes_ok_app.
  split; [now apply bytes_ok_ztake|]. split; [exact (get_range_bytes _ _ _ _ Hd E1)|now apply bytes_ok_zdrop].
Qed.
Lemma file_of_bytes_calm data p n : bytes_ok data -> calm (file_of_bytes data p n) /\ forall f, file_of_bytes data p n = Ok f -> bytes_ok (f_data f).
Proof.
  intros Hd. unfold file_of_bytes. cbv zeta.
  assert (H1 : calm (file_validate_signature (mkRecord data p))) by (unfold file_validate_signature, rec_signature; calmt).
  destruct (file_validate_signature _) as [u|e| |]; cbn [rbind]; try (split; [exact H1|discriminate]).
  assert (H2 : calm (snd (fixup (mkRecord data p))) /\ bytes_ok (rec_data (fst (fixup (mkRecord data p))))).
  { unfold fixup. match goal with |- context [match ?m with Ok _ => _ | Err _ => _ | Panic => _ | OutOfFuel => _ end] => assert (Hm : calm m) end.
    { unfold update_sequence_number, update_sequence_array_count, update_sequence_array_start, update_sequence_offset, update_sequence_size, rd_u16. calmt. }
    destruct (let? usn := _ in _) as [[[usn c] st]|e| |]; try (split; [exact Hm|exact Hd]).
    cbn [rec_data rec_position]. pose proof (fixup_loop_calm (Z.to_nat c) usn p st (NTFS_BLOCK_SIZE - 2) data Hd) as H.
    destruct (fixup_loop _ _ _ _ _ _) as [data' r]. exact H. }
  destruct (fixup (mkRecord data p)) as [r' x]. cbn [fst snd] in H2. destruct H2 as (C & B). destruct x as [u'|e| |]; try (split; [exact C|discriminate]).
  assert (H3 : calm (file_validate_sizes (mkFile r' n))) by (unfold file_validate_sizes, f_allocated_size, f_data_size, rd_u32; calmt).
  destruct (file_validate_sizes _) as [w|e| |]; cbn [rbind]; try (split; [exact H3|discriminate]). split; [exact Logic.I|]. intros f [= <-]. exact B.
Qed.

Lemma dev_read_bytes n d d' bs : bytes_ok (d_img d) -> dev_read n d = (d', Ok bs) -> bytes_ok bs.
Proof.
  intros H. unfold dev_read. destruct (d_reads d) as [|[k|e] t]; intros E; try discriminate; injection E as _ <-.
  - apply bytes_ok_ztake. unfold from_pos. destruct (_ <? _); [constructor|now apply bytes_ok_zdrop].
  - apply bytes_ok_ztake, bytes_ok_ztake. unfold from_pos. destruct (_ <? _); [constructor|now apply bytes_ok_zdrop].
Qed.
Lemma dev_read_exact_loop_calm fuel : forall n acc d, bytes_ok (d_img d) -> bytes_ok acc ->
  snd (dev_read_exact_loop fuel n acc d) <> Err (EIo Interrupted) /\ forall bs, snd (dev_read_exact_loop fuel n acc d) = Ok bs -> bytes_ok bs.
Proof.
  induction fuel as [|f IH]; intros n acc d Hd Ha; cbn [dev_read_exact_loop]; (destruct (n <=? 0); [split; [discriminate|]; intros bs [= <-]; exact Ha|]).
  { split; discriminate. }
  pose proof (dev_read_evolves n d) as (Hi & _). destruct (dev_read n d) as [d' [bs|e| |]] eqn:E; cbn [fst] in Hi.
  - destruct bs as [|b t] eqn:Eb; [split; discriminate|]. apply IH; [now rewrite Hi|]. rewrite bytes_ok_app. split; auto. exact (dev_read_bytes _ _ _ _ Hd E).
  - destruct e; try (split; discriminate). destruct k; try (split; discriminate). apply IH; auto. now rewrite Hi.
  - split; discriminate.
  - split; discriminate.
Qed.

Definition dev_ok (d : dev) : Prop := bytes_ok (d_img d).
Lemma dev_ok_evolves d d' : evolves d d' -> dev_ok d -> dev_ok d'.
Proof. intros (H & _). unfold dev_ok. now rewrite H. Qed.
Definition file_ok (f : file) : Prop := bytes_ok (f_data f).
Definition nt_ok (nt : ntfs) : Prop := 1 <= cluster_size nt /\ forall p, mft_position nt = Some p -> 0 <= p.

Lemma file_new_calm nt p n d d' x : dev_ok d -> 0 <= p -> file_new nt p n d = (d', x) -> evolves d d' /\ calmd d d' x /\ forall f, x = Ok f -> file_ok f.
Proof.
  intros Hd Hp H. pose proof (file_new_evolves nt p n d) as Ev. rewrite H in Ev. cbn [fst] in Ev. split; [exact Ev|].
  unfold file_new, mbind in H. destruct (dev_seek p d) as [d1 y] eqn:E1. pose proof (dev_seek_evolves p d) as Ev1. rewrite E1 in Ev1. cbn [fst] in Ev1.
  assert (Hs : y = Ok tt /\ d_pos d1 = p \/ (exists e, y = Err (EIo e)) /\ (events d1 < events d)%nat).
  { unfold dev_seek in E1. unfold events. destruct (d_seeks d) as [|[e|] t]; injection E1 as <- <-; cbn; [left|right|left]; eauto. split; [eauto|lia]. }
  destruct Hs as [(-> & P1)|((e & ->) & P)].
  2: { injection H as <- <-. split; [|discriminate]. destruct e; cbn; auto. }
  destruct (dev_read_exact_fuel (file_record_size nt) d1 ltac:(lia)) as (F1 & F2).
  destruct (dev_read_exact_loop_calm (length (d_reads d1) + 2) (file_record_size nt) [] d1 (dev_ok_evolves _ _ Ev1 Hd) (Forall_nil _)) as (C1 & C2).
  fold (dev_read_exact (file_record_size nt) d1) in C1, C2.
  destruct (dev_read_exact (file_record_size nt) d1) as [d2 z]. cbn [snd] in *.
  destruct z as [data|e| |]; try (injection H as <- <-; split; [|discriminate]; apply calm_calmd, calm_fine; cbn; auto; congruence).
  injection H as <- <-. destruct (file_of_bytes_calm data (Some p) n (C2 _ eq_refl)) as (C3 & C4). split; [now apply calm_calmd|exact C4].
Qed.

(** ** Attributes of a record *)
Lemma attr_new_ok f o e a : attr_new f o e = Ok a -> a = mkAttr f o e /\ o + 16 <= zlen (f_data f).
Proof.
  unfold attr_new, attr_validate_length. cbn [at_file at_offset]. destruct (_ <? ATTRIBUTE_HEADER_SIZE) eqn:E; [discriminate|].
  destruct (attr_length _) as [l|? | |]; cbn [rbind]; try discriminate. destruct (l <? _); [discriminate|]. destruct (_ <? l); [discriminate|].
  cbn [rbind]. intros [= <-]. split; auto. unfold ATTRIBUTE_HEADER_SIZE in E. pose proof (zlen_nonneg (f_data f)). lia.
Qed.
Lemma raw_next_calm f s s' x : file_ok f -> 0 <= s -> raw_next f s = (s', Some x) -> calm x /\
  forall a, x = Ok a -> at_file a = f /\ at_offset a = s /\ at_entries a = None /\ s + 16 <= s' /\ s + 16 <= zlen (f_data f).
Proof.
  intros Hf Hs. unfold raw_next. destruct (get_range _ _ _); [|discriminate]. destruct (_ =? TY_End); [discriminate|].
  pose proof (calm_attr_new f s None) as C. destruct (attr_new f s None) as [a|e| |] eqn:E; try (intros [= <- <-]; split; [exact C|discriminate]).
  destruct (attr_new_ok _ _ _ _ E) as (-> & Hz). unfold attr_new, attr_validate_length in E. cbn [at_file at_offset] in E. destruct (_ <? ATTRIBUTE_HEADER_SIZE); [discriminate|].
  destruct (attr_length (mkAttr f s None)) as [z0|e0| |] eqn:El; cbn [rbind] in E; try discriminate. destruct (z0 <? _) eqn:E2; [discriminate|].
  intros [= <- <-]. split; [exact Logic.I|]. intros a [= <-]. cbn. unfold ATTRIBUTE_HEADER_SIZE in E2. splits; auto; lia.
Qed.
Lemma raw_start_ok f s : file_ok f -> raw_start f = Ok s -> 0 <= s.
Proof. intros Hf H. apply (rd_bound 2 (f_data f) 20 s Hf ltac:(lia)) in H. lia. Qed.

Lemma find_resident_loop_calm fuel : forall f ty n i s, file_ok f -> 0 <= s -> (Z.to_nat (zlen (f_data f) - s) < fuel)%nat ->
  calm (find_resident_loop fuel f ty n i s) /\ forall a, find_resident_loop fuel f ty n i s = Ok a -> at_file a = f /\ 0 <= at_offset a /\ at_entries a = None.
Proof.
  induction fuel as [|k IH]; intros f ty n i s Hf Hs Hk; [lia|]. cbn [find_resident_loop].
  destruct (raw_next f s) as [s' [x|]] eqn:E; [|split; [exact Logic.I|discriminate]].
  destruct (raw_next_calm _ _ _ _ Hf Hs E) as (C & H). destruct x as [a|e| |]; cbn [rbind]; try (split; [exact C|discriminate]).
  destruct (H a eq_refl) as (A1 & A2 & A3 & A4 & A5). pose proof (calm_attr_matches a ty n i) as Cm.
  destruct (attr_matches a ty n i) as [[]|e| |]; cbn [rbind]; try (split; [exact Cm|discriminate]).
  - split; [exact Logic.I|]. intros b [= <-]. splits; auto; lia.
  - apply IH; auto; lia.
Qed.
Lemma find_resident_calm f ty n i : file_ok f -> calm (find_resident_attribute f ty n i) /\
  forall a, find_resident_attribute f ty n i = Ok a -> at_file a = f /\ 0 <= at_offset a /\ at_entries a = None.
Proof.
  intros Hf. unfold find_resident_attribute. pose proof (calm_rd 2 (f_data f) 20) as C. pose proof (raw_start_ok f) as Hs.
  unfold raw_start, f_first_attribute_offset, rd_u16 in *. destruct (rd 2 (f_data f) 20) as [s|e| |]; cbn [rbind]; try (split; [exact C|discriminate]).
  specialize (Hs s Hf eq_refl). apply find_resident_loop_calm; auto. unfold zlen. lia.
Qed.

(** ** Values without attribute lists *)
Definition sval_ok (v : sval) : Prop := match v with SVRes r => bytes_ok (rv_data r) | SVNr v => nr_sane false v end.

Lemma nr_new_calm cs data p size : 1 <= cs -> bytes_ok data -> 0 <= size <= U64_MAX ->
  calm (nr_new cs data p size) /\ forall v, nr_new cs data p size = Ok v -> nr_sane false v.
Proof.
  intros Hcs Hd Hs. unfold nr_new.
  assert (Hv : nr_sane false (mkNrv cs data p druns_start (ss_new size))).
  { split; cbn; auto; try (intros; discriminate); try lia; try (unfold U64_MAX; lia). split; [cbn; unfold U64_MAX; lia|]. split; [exact Hs|]. intros r [=]. }
  destruct (nr_next_data_run _) as [v x] eqn:E. destruct (nr_next_sane false _ _ _ Hv E) as (N1 & N2 & N3 & _).
  destruct x as [b|e| |]; try (split; [apply calm_fine; auto; congruence|discriminate]). split; [exact Logic.I|]. now intros v' [= <-].
Qed.
Lemma nr_data_bytes a data p : file_ok (at_file a) -> attr_nr_data_and_position a = Ok (data, p) -> bytes_ok data.
Proof.
  intros Hf. unfold attr_nr_data_and_position. destruct (attr_nr_runs_offset a); cbn [rbind]; try discriminate. destruct (attr_length a); cbn [rbind]; try discriminate.
  destruct (get_range _ _ _) eqn:E; [|discriminate]. intros [= <- <-]. exact (get_range_bytes _ _ _ _ Hf E).
Qed.
Lemma attr_value_simple_calm cs a : 1 <= cs -> file_ok (at_file a) -> calm (attr_value_simple cs a) /\ forall v, attr_value_simple cs a = Ok v -> sval_ok v.
Proof.
  intros Hcs Hf. unfold attr_value_simple. pose proof (calm_attr_is_resident a) as C. destruct (attr_is_resident a) as [[]|e| |]; cbn [rbind]; try (split; [exact C|discriminate]).
  - pose proof (calm_resident_value a) as C2. destruct (attr_resident_value a) as [r|e| |] eqn:E; cbn [rbind]; try (split; [exact C2|discriminate]).
    split; [exact Logic.I|]. intros v [= <-]. cbn. unfold attr_resident_value in E.
    destruct (attr_validate_resident a); cbn [rbind] in E; try discriminate. destruct (attr_resident_value_offset a); cbn [rbind] in E; try discriminate.
    destruct (attr_resident_value_length a); cbn [rbind] in E; try discriminate. unfold idx_range in E. destruct (get_range _ _ _) eqn:E2; cbn [rbind] in E; try discriminate.
    injection E as <-. cbn. exact (get_range_bytes _ _ _ _ Hf E2).
  - unfold attr_nr_value. pose proof (calm_nr_data a) as C2. destruct (attr_nr_data_and_position a) as [[data p]|e| |] eqn:E; cbn [rbind]; try (split; [exact C2|discriminate]).
    pose proof (calm_attr_rd 8 a 48) as C3. unfold attr_nr_data_size. destruct (attr_rd 8 a 48) as [size|e| |] eqn:E3; cbn [rbind]; try (split; [exact C3|discriminate]).
    apply (rd_bound 8 _ _ _ Hf ltac:(lia)) in E3. cbn [fst snd].
    destruct (nr_new_calm cs data p size Hcs (nr_data_bytes _ _ _ Hf E) ltac:(unfold U64_MAX; lia)) as (N1 & N2).
    destruct (nr_new cs data p size) as [v|e| |]; cbn [rbind]; try (split; [exact N1|discriminate]). split; [exact Logic.I|]. intros w [= <-]. exact (N2 v eq_refl).
Qed.

(** ** Computations on a reader that settle *)
Definition post {S A} (I : S -> Prop) (Q : A -> Prop) (d : dev) (y : dev * (S * res A)) : Prop :=
  let '(d', (s', x)) := y in evolves d d' /\ I s' /\ calmd d d' x /\ forall a, x = Ok a -> Q a.
Definition frm {S A} (I : S -> Prop) (Q : A -> Prop) (m : nat -> RM S A) : Prop :=
  forall s d, I s -> dev_ok d -> settles (fun k => m k s d) (post I Q d).
Definition freads {S} (I : S -> Prop) (read : nat -> S -> Z -> dev -> dev * (S * res (list Z))) : Prop :=
  forall s n d, I s -> dev_ok d -> settles (fun k => read k s n d) (post I (fun bs => bytes_ok bs /\ zlen bs <= Z.max 0 n) d).

Ltac ps := cbv beta iota delta [post rm_ret rm_err]; splits.
Lemma settles_inv {A} (x : A) P : settles (fun _ => x) P -> P x.
Proof. intros (N & y & Hy & H). now rewrite (H N ltac:(lia)). Qed.
Lemma frm_ret {S A} (I : S -> Prop) (Q : A -> Prop) a : Q a -> frm I Q (fun _ => rm_ret a).
Proof. intros H s d Hs Hd. apply settles_const. ps; auto using evolves_refl; try exact Logic.I; try now intros b [= <-]. Qed.
Lemma frm_err {S A} (I : S -> Prop) (Q : A -> Prop) e : e <> EIo Interrupted -> frm I Q (fun _ => @rm_err S A e).
Proof. intros He s d Hs Hd. apply settles_const. ps; try (apply evolves_refl); try discriminate; auto. unfold calmd; destruct e; auto. destruct k; auto. congruence. Qed.
Lemma frm_bind {S A B} (I : S -> Prop) (Q : A -> Prop) (R : B -> Prop) (m : nat -> RM S A) (f : nat -> A -> RM S B) :
  frm I Q m -> (forall a, Q a -> frm I R (fun k => f k a)) -> frm I R (fun k => rm_bind (m k) (f k)).
Proof.
  intros Hm Hf s d Hs Hd. unfold rm_bind.
  apply (settles_bind (fun k => m k s d) (post I Q d) (fun k y => match y with
    | (d', (s', Ok a)) => f k a s' d' | (d', (s', Err e)) => (d', (s', Err e)) | (d', (s', Panic)) => (d', (s', Panic)) | (d', (s', OutOfFuel)) => (d', (s', OutOfFuel)) end)).
  { exact (Hm s d Hs Hd). }
  intros (d1 & s1 & x) (E1 & I1 & C1 & Q1). destruct x as [a|e| |].
  - eapply settles_impl; [exact (Hf a (Q1 a eq_refl) s1 d1 I1 (dev_ok_evolves _ _ E1 Hd))|].
    intros (d2 & s2 & y) (E2 & I2 & C2 & Q2). ps; auto; try exact (evolves_trans _ _ _ E1 E2); exact (calmd_trans _ _ _ _ E1 C2).
  - apply settles_const. ps; auto; try discriminate.
  - apply settles_const. ps; auto; try discriminate.
  - destruct C1.
Qed.

Section Exact.
  Context {S : Type} (I : S -> Prop) (read : nat -> S -> Z -> dev -> dev * (S * res (list Z))) (Hr : freads I read).
  Lemma freads_attached : freads I (fun k => attached (read k)).
  Proof.
    intros s n d Hs Hd.
    refine (settles_ext _ _ _ (settles_map (fun k => read k s n d) (fun y => attached (fun _ _ _ => y) s n d) _ (post I (fun bs => bytes_ok bs /\ zlen bs <= Z.max 0 n) d) (Hr s n d Hs Hd) _) _); [|reflexivity].
    unfold attached.
    intros (d1 & s1 & x) (E1 & I1 & C1 & Q1). destruct x as [a|e| |]; ps; auto; try discriminate. destruct e; try exact Logic.I. exact C1.
  Qed.
  Lemma read_exact_loop_settles g : forall s n acc d, I s -> dev_ok d -> bytes_ok acc -> (Z.to_nat n + events d < g)%nat ->
    settles (fun k => rs_read_exact_loop (read k) g s n acc d) (post I bytes_ok d).
  Proof.
    induction g as [|g IH]; intros s n acc d Hs Hd Ha Hg; [lia|]. cbn [rs_read_exact_loop].
    destruct (n <=? 0) eqn:En. { apply settles_const. ps; auto using evolves_refl; try exact Logic.I; try now intros a [= <-]. }
    apply (settles_bind (fun k => read k s n d) (post I (fun bs => bytes_ok bs /\ zlen bs <= Z.max 0 n) d) (fun k y => match y with
      | (d1, (s1, Ok [])) => (d1, (s1, Err (EIo UnexpectedEof)))
      | (d1, (s1, Ok bs)) => rs_read_exact_loop (read k) g s1 (n - zlen bs) (acc ++ bs) d1
      | (d1, (s1, Err (EIo Interrupted))) => rs_read_exact_loop (read k) g s1 n acc d1
      | (d1, (s1, x)) => (d1, (s1, x)) end)); [exact (Hr s n d Hs Hd)|].
    intros (d1 & s1 & x) (E1 & I1 & C1 & Q1). pose proof (evolves_events _ _ E1) as Ev. pose proof (dev_ok_evolves _ _ E1 Hd) as Hd1.
    assert (Hnext : forall m b, bytes_ok b -> (Z.to_nat m + events d1 < g)%nat -> settles (fun k => rs_read_exact_loop (read k) g s1 m b d1) (post I bytes_ok d)).
    { intros m b Hb Hm. eapply settles_impl; [exact (IH s1 m b d1 I1 Hd1 Hb Hm)|]. intros (d2 & s2 & y) (E2 & I2 & C2 & Q2).
      ps; auto; try exact (evolves_trans _ _ _ E1 E2); exact (calmd_trans _ _ _ _ E1 C2). }
    destruct x as [bs|e| |].
    - destruct (Q1 bs eq_refl) as (B1 & B2). destruct bs as [|b t]; [apply settles_const; ps; auto; discriminate|].
      apply Hnext; [rewrite bytes_ok_app; auto|]. rewrite zlen_cons in *. pose proof (zlen_nonneg t). lia.
    - assert (Hk : e = EIo Interrupted \/ e <> EIo Interrupted) by (destruct e; try (right; discriminate); destruct k; try (right; discriminate); now left).
      destruct Hk as [->|Hk]. { cbn in C1. apply Hnext; auto. lia. }
      apply (settles_ext (fun _ => (d1, (s1, Err e)))); [|intros k; destruct e; auto; destruct k0; auto; congruence].
      apply settles_const. ps; auto; try discriminate.
    - apply settles_const. ps; auto; try discriminate.
    - destruct C1.
  Qed.
  Lemma read_exact_settles s n d : I s -> dev_ok d -> settles (fun k => rs_read_exact (read k) s n d) (post I bytes_ok d).
  Proof. intros Hs Hd. unfold rs_read_exact. apply read_exact_loop_settles; auto; [constructor|]. unfold events. lia. Qed.
End Exact.

Lemma frm_attached {S} (I : S -> Prop) read n : freads I read -> frm I (fun bs => bytes_ok bs) (fun k => attached_exact (read k) n).
Proof. intros Hr s d Hs Hd. unfold attached_exact. exact (read_exact_settles I (fun k => attached (read k)) (freads_attached I read Hr) s n d Hs Hd). Qed.

(** ** Readers without attribute lists *)
Lemma run_read_bytes r n d d' r' bs : bytes_ok (d_img d) -> run_read r n d = (d', (r', Ok bs)) -> bytes_ok bs.
Proof.
  intros H. unfold run_read. destruct (_ =? 0); [intros [= <- <- <-]; constructor|]. cbv zeta. destruct (r_pos r) as [p|].
  - destruct (_ <? _); [discriminate|]. pose proof (dev_seek_evolves (p + r_sp r) d) as (Hi & _). destruct (dev_seek _ d) as [d1 [u|e| |]]; cbn [fst] in Hi; try discriminate.
    destruct (dev_read _ d1) as [d2 [b|e| |]] eqn:E; try discriminate. intros [= _ _ <-]. apply (dev_read_bytes _ _ _ _ ltac:(now rewrite Hi) E).
  - intros [= _ _ <-]. unfold zrepeat. apply Forall_forall. intros x Hx. apply repeat_spec in Hx. subst. unfold is_byte. lia.
Qed.
Lemma ss_read_bytes s n d d' s' bs : bytes_ok (d_img d) -> ss_read_data_run s n d = (d', (s', Ok bs)) -> bytes_ok bs.
Proof.
  intros H. unfold ss_read_data_run. destruct (ss_run s) as [r|]; [|intros [= _ _ <-]; constructor]. destruct (_ <=? _); [intros [= _ _ <-]; constructor|]. cbv zeta.
  destruct (_ =? 0); [intros [= _ _ <-]; constructor|]. destruct (run_read r _ d) as [d1 [r1 [b|e| |]]] eqn:E; try discriminate. intros [= _ _ <-]. exact (run_read_bytes _ _ _ _ _ _ H E).
Qed.
Lemma stream_read_bytes {S} (o : stream_ops S) : (forall s d, evolves d (fst (so_advance o s d))) ->
  forall fuel s n acc d d' s' bs, dev_ok d -> bytes_ok acc -> stream_read_loop o fuel s n acc d = (d', (s', Ok bs)) -> bytes_ok bs.
Proof.
  intros Hadv. induction fuel as [|f IH]; intros s n acc d d' s' bs Hd Ha; cbn [stream_read_loop]; (destruct (n <=? zlen acc); [now intros [= _ _ <-]|]); [discriminate|].
  pose proof (ss_read_data_run_evolves (so_ss o s) (n - zlen acc) d) as Ev. destruct (ss_read_data_run _ _ d) as [d1 [s1 [b|e| |]]] eqn:E; cbn [fst] in Ev; try discriminate.
  pose proof (dev_ok_evolves _ _ Ev Hd) as Hd1. destruct b as [|b t].
  - pose proof (Hadv (so_set o s s1) d1) as Ev2. destruct (so_advance o _ d1) as [d2 [s2 [[]|e| |]]]; cbn [fst] in Ev2; try discriminate; [|now intros [= _ _ <-]].
    apply IH; auto. exact (dev_ok_evolves _ _ Ev2 Hd1).
  - apply IH; auto. rewrite bytes_ok_app. split; auto. exact (ss_read_bytes _ _ _ _ _ _ Hd E).
Qed.

Lemma nr_freads : freads (nr_sane false) (fun _ => nr_read).
Proof.
  intros v n d Hv Hd. apply settles_const. pose proof (nr_read_evolves v n d) as Ev. destruct (nr_read v n d) as [d1 [v1 x]] eqn:E. cbn [fst] in Ev.
  destruct (nr_read_sane false _ _ _ _ _ _ Hv E) as (H1 & H2 & H3 & H4). ps; auto; try (now apply calmd_fine). intros bs ->. split; [|now apply H4].
  unfold nr_read in E. exact (stream_read_bytes nr_ops ltac:(intros; apply evolves_refl) _ _ _ _ _ _ _ _ Hd (Forall_nil _) E).
Qed.
Definition res_ok (r : resv) : Prop := bytes_ok (rv_data r).
Lemma res_freads : freads res_ok (fun _ => res_read).
Proof.
  intros v n d Hv Hd. apply settles_const. unfold res_read. cbv zeta. destruct (_ =? 0) eqn:E0.
  { ps; [apply evolves_refl|exact Hv|exact Logic.I|]. intros a [= <-]. split; [constructor|]. change (zlen (@nil Z)) with 0. lia. }
  unfold idx_range. destruct (get_range _ _ _) as [bs|] eqn:E; [|ps; [apply evolves_refl|exact Hv|exact Logic.I|discriminate]].
  ps; [apply evolves_refl|exact Hv|exact Logic.I|].
  intros a [= <-]. split; [exact (get_range_bytes _ _ _ _ Hv E)|]. unfold get_range in E. destruct (_ && _) eqn:E1; [|discriminate]. injection E as <-.
  unfold slice. rewrite zlen_ztake, zlen_zdrop. lia.
Qed.

(** ** File records by number *)
Definition mpost {A} (Q : A -> Prop) (d : dev) (y : dev * res A) : Prop := let '(d', x) := y in evolves d d' /\ calmd d d' x /\ forall a, x = Ok a -> Q a.
Definition nt_good (nt : ntfs) : Prop := nt_ok nt /\ 0 <= file_record_size nt.

Lemma pos_add_nonneg p n q : pos_add p n = Some q -> 0 <= q.
Proof. unfold pos_add, pos_new. destruct p as [v|]; [|discriminate]. destruct (_ =? 0); [discriminate|]. intros [= <-]. apply Z.mod_pos_bound. reflexivity. Qed.
Lemma sv_data_position_nonneg v p : sv_data_position v = Some p -> 0 <= p.
Proof.
  destruct v as [r|r]; cbn.
  - unfold res_data_position. destruct (_ <=? _); [|discriminate]. apply pos_add_nonneg.
  - unfold nr_data_position, ss_data_position, run_data_position. destruct (ss_run _); [|discriminate]. destruct (_ <=? _); [|discriminate]. apply pos_add_nonneg.
Qed.
Lemma sv_seek_calm v sf d d' v' x : sval_ok v -> seek_arg_ok sf -> sv_seek v sf d = (d', (v', x)) -> sval_ok v' /\ d' = d /\ fine false x.
Proof.
  intros Hv Ha. destruct v as [r|r]; cbn [sv_seek].
  - unfold res_seek. destruct (seek_contiguous _ _ _) as [q y] eqn:E. intros [= <- <- <-]. splits; auto. unfold seek_contiguous in E.
    destruct sf; [injection E as <- <-; exact Logic.I| |]; cbv zeta in E; (match type of E with match ?o with _ => _ end = _ => destruct o end; injection E as <- <-; exact Logic.I).
  - destruct (nr_seek r sf d) as [d1 [r1 y]] eqn:E. intros [= <- <- <-]. destruct (nr_seek_sane false _ _ _ _ _ _ Hv Ha E) as (H1 & H2 & H3). splits; auto.
Qed.
(** A seek is not interrupted: it does not use the device. *)
Lemma nr_seek_calm v sf d d' v' x : nr_sane false v -> seek_arg_ok sf -> nr_seek v sf d = (d', (v', x)) -> nr_sane false v' /\ d' = d /\ calm x.
Proof.
  intros Hv Ha H. destruct (nr_seek_sane false _ _ _ _ _ _ Hv Ha H) as (H1 & H2 & H3). splits; auto. apply calm_fine; auto. intros ->.
  unfold nr_seek, stream_seek in H. pose proof (ns_ss _ _ Hv) as (S1 & S2 & S3). pose proof (togo_le v) as T. cbn [so_ss so_set so_rewind nr_ops] in H.
  destruct (optimize_seek_cases (nv_ss v) sf (nr_len v) S2 S1 Ha) as [(Hq & Hd & E)|[(Hq & Hd & E)|(Hq & E)]];
    rewrite E in H; set (q := seek_target _ _ _) in *.
  - replace (0 <=? q - ss_pos (nv_ss v)) with true in H by lia.
    destruct (stream_seek_loop nr_ops (nr_fuel v d) v false (q - ss_pos (nv_ss v)) d) as [d1 [v1 y]] eqn:E1.
    destruct (nr_seek_loop_sane false (nr_fuel v d) v false (q - ss_pos (nv_ss v)) d d1 v1 y Hv ltac:(unfold I64_MAX, U64_MAX in *; lia) ltac:(lia)
      ltac:(unfold nr_fuel; lia) E1) as (N1 & N2 & -> & N4 & N5).
    unfold stream_seek_finish in H. destruct y as [[]|e| |]; try congruence. destruct (U64_MAX <? _); discriminate.
  - destruct (nr_rewind v) as [v1 y] eqn:E0. unfold nr_rewind in E0.
    set (v0 := mkNrv (nv_cs v) (nv_data v) (nv_position v) druns_start (ss_new (ss_size (nv_ss v)))) in *.
    assert (Hv0 : nr_sane false v0).
    { destruct Hv as [A1 A2 A3 A4 A5 A6 A7]. split; cbn; auto; try (intros; discriminate); try lia; try (unfold U64_MAX; lia). split; [cbn; unfold U64_MAX; lia|]. split; [exact S2|]. intros r [=]. }
    destruct (nr_next_data_run v0) as [v2 z] eqn:E2. destruct (nr_next_sane false _ _ _ Hv0 E2) as (N1 & N2 & N3 & _ & N5 & _).
    destruct z as [t|e| |]; injection E0 as <- <-; try congruence.
    destruct (stream_seek_loop nr_ops (nr_fuel v d) v2 true q d) as [d1 [v1 y]] eqn:E1.
    pose proof (togo_le v2) as T2. rewrite N5 in T2. change (nv_data v0) with (nv_data v) in T2.
    destruct (nr_seek_loop_sane false (nr_fuel v d) v2 true q d d1 v1 y N1 ltac:(lia) ltac:(discriminate) ltac:(unfold nr_fuel; lia) E1) as (M1 & M2 & -> & M4 & M5).
    unfold stream_seek_finish in H. destruct y as [[]|e| |]; congruence.
  - congruence.
Qed.
Lemma sv_seek_calm2 v sf d d' v' x : sval_ok v -> seek_arg_ok sf -> sv_seek v sf d = (d', (v', x)) -> sval_ok v' /\ d' = d /\ calm x.
Proof.
  intros Hv Ha H. destruct (sv_seek_calm _ _ _ _ _ _ Hv Ha H) as (H1 & H2 & H3). splits; auto. destruct v as [r|r]; cbn [sv_seek] in H.
  - unfold res_seek in H. destruct (seek_contiguous _ _ _) as [q y] eqn:E. injection H as _ _ <-. unfold seek_contiguous in E.
    destruct sf; [injection E as <- <-; exact Logic.I| |]; cbv zeta in E; (match type of E with match ?o with _ => _ end = _ => destruct o end; injection E as <- <-; exact Logic.I).
  - destruct (nr_seek r sf d) as [d1 [r1 y]] eqn:E. injection H as _ _ <-. apply (nr_seek_calm _ _ _ _ _ _ Hv Ha E).
Qed.

Ltac mps := cbv beta iota delta [mpost mlift mret]; splits.
Lemma ntfs_file_calm nt n d : nt_good nt -> 0 <= n -> dev_ok d -> mpost file_ok d (ntfs_file nt n d).
Proof.
  intros ((Hcs & Hmp) & Hfr) Hn Hd. unfold ntfs_file. unfold checked_mul64. destruct (_ <=? U64_MAX) eqn:Eo.
  2: { cbn. mps; auto; try discriminate. }
  destruct (mft_position nt) as [mp|]; [|cbn; mps; auto; try discriminate]. specialize (Hmp mp eq_refl).
  unfold mbind. destruct (file_new nt mp 0 d) as [d1 x1] eqn:E1. destruct (file_new_calm _ _ _ _ _ _ Hd Hmp E1) as (Ev1 & C1 & F1).
  destruct x1 as [mft|e| |]; try (cbn; mps; auto; try discriminate; fail).
  specialize (F1 mft eq_refl). destruct (find_resident_calm mft TY_Data None None F1) as (C2 & F2).
  destruct (find_resident_attribute mft TY_Data None None) as [a|e| |]; cbn; try (mps; auto; try discriminate; exact (calm_calmd _ _ _ C2)).
  destruct (F2 a eq_refl) as (A1 & A2 & A3).
  destruct (attr_value_simple_calm (cluster_size nt) a Hcs ltac:(now rewrite A1)) as (C3 & F3).
  destruct (attr_value_simple (cluster_size nt) a) as [v|e| |]; cbn; try (mps; auto; try discriminate; exact (calm_calmd _ _ _ C3)).
  specialize (F3 v eq_refl). destruct (sv_seek v (SStart (n * file_record_size nt)) d1) as [d2 [v2 y]] eqn:E2.
  destruct (sv_seek_calm2 v (SStart (n * file_record_size nt)) d1 d2 v2 y F3 ltac:(split; [apply Z.mul_nonneg_nonneg; lia|lia]) E2) as (S1 & -> & S3).
  destruct y as [q|e| |]; try (mps; auto; try discriminate; exact (calm_calmd _ _ _ S3)).
  destruct (sv_data_position v2) as [p|] eqn:Ep; [|mps; auto; try discriminate; exact Logic.I].
  destruct (file_new nt p n d1) as [d3 x3] eqn:E3. destruct (file_new_calm _ _ _ _ _ _ (dev_ok_evolves _ _ Ev1 Hd) (sv_data_position_nonneg _ _ Ep) E3) as (Ev3 & C4 & F4).
  mps; auto; [exact (evolves_trans _ _ _ Ev1 Ev3)|exact (calmd_trans _ _ _ _ Ev1 C4)].
Qed.

(** ** Attribute lists *)
Definition entry_ok (e : list_entry) : Prop := 26 <= le_length e <= U16_MAX /\ 0 <= le_number e.
Lemma fr_number_nonneg l : bytes_ok l -> 0 <= fr_number l.
Proof. intros H. unfold fr_number. apply Z.land_nonneg. left. now apply le_val_nonneg. Qed.
Lemma le_new_settles {S} (I : S -> Prop) (rx : nat -> Z -> RM S (list Z)) p :
  (forall n, frm I bytes_ok (fun k => rx k n)) -> frm I entry_ok (fun k => le_new (rx k) p).
Proof.
  intros Hr. unfold le_new. apply (frm_bind I bytes_ok entry_ok (fun k => rx k 26) (fun k h =>
    if field 2 h 4 <? 26 + field 1 h 6 * 2 then rm_err (EInvalidStructuredValueSize p TY_AttributeList (field 2 h 4) (26 + field 1 h 6 * 2))
    else rdo name <- rx k (field 1 h 6 * 2); rm_ret (le_of_header h name p))); [apply Hr|].
  intros h Hh. destruct (_ <? _) eqn:E; [apply frm_err; discriminate|].
  apply (frm_bind I bytes_ok entry_ok (fun k => rx k (field 1 h 6 * 2)) (fun k name => rm_ret (le_of_header h name p))); [apply Hr|].
  intros name Hname. apply frm_ret. pose proof (field1_bound h 6 Hh). pose proof (field2_bound h 4 Hh). split; cbn [le_length le_of_header]; [lia|].
  unfold le_number. cbn [le_ref le_of_header]. apply fr_number_nonneg. now apply bytes_ok_slice.
Qed.

Definition alist_ok (l : alist) : Prop := match l with ALResident sl _ => bytes_ok sl | ALNonResident v => nr_sane false v end.
(** What remains of the list. *)
Definition lrest (l : alist) : nat := match l with ALResident sl _ => length sl | ALNonResident v => Z.to_nat (nr_len v - nr_stream_position v) end.

Lemma nr_seek_loop_size fuel : forall v is_start left d d' v' x, stream_seek_loop nr_ops fuel v is_start left d = (d', (v', x)) ->
  ss_size (nv_ss v') = ss_size (nv_ss v) /\ ss_pos (nv_ss v') = ss_pos (nv_ss v).
Proof.
  induction fuel as [|f IH]; intros v b left d d' v' x H; cbn [stream_seek_loop] in H; (destruct (left <=? 0); [injection H as <- <- <-; auto|]).
  { injection H as <- <- <-. auto. }
  cbn [so_ss so_set so_advance nr_ops] in H. destruct (ss_seek_data_run _ _ _) as [[s1 left1] y] eqn:E1.
  assert (Hs : ss_size s1 = ss_size (nv_ss v) /\ ss_pos s1 = ss_pos (nv_ss v)).
  { unfold ss_seek_data_run in E1. destruct (ss_run _) as [r|]; [|injection E1 as <- <- <-; auto]. destruct (_ <? _); [|injection E1 as <- <- <-; auto].
    destruct (run_seek r _) as [r' z]. injection E1 as <- <- <-. auto. }
  destruct Hs as (Z1 & Z2). destruct y as [[]|e| |]; try (injection H as <- <- <-; cbn; auto; fail).
  destruct (nr_next_data_run (nv_set_ss v s1)) as [v2 z] eqn:E2. destruct (nr_advance_pos _ _ _ E2) as (P1 & P2). cbn [nv_set_ss nv_ss] in P1, P2.
  destruct z as [[]|e| |]; try (injection H as <- <- <-; cbn; split; congruence).
  destruct (IH _ _ _ _ _ _ _ H) as (I1 & I2). split; congruence.
Qed.
Lemma nr_seek_forward v n d d' v' q : nr_sane false v -> 0 <= n <= U16_MAX -> nr_seek v (SCurrent n) d = (d', (v', Ok q)) ->
  nr_stream_position v' = nr_stream_position v + n /\ nr_len v' = nr_len v.
Proof.
  intros Hv Hn H. unfold nr_seek, stream_seek in H. cbn [so_ss nr_ops] in H. unfold optimize_seek, simplify_seek in H.
  replace (0 <=? n) with true in H by lia. destruct (checked_add64 _ n); [|discriminate]. cbn [rbind] in H. replace (0 <=? n) with true in H by lia.
  destruct (stream_seek_loop nr_ops (nr_fuel v d) v false n d) as [d1 [v1 y]] eqn:E1. apply nr_seek_loop_size in E1 as (P1 & P2).
  unfold stream_seek_finish in H. destruct y as [[]|e| |]; try discriminate. cbn [so_ss so_set nr_ops] in H. destruct (U64_MAX <? _); [discriminate|].
  injection H as <- <- <-. unfold nr_stream_position, nr_len. cbn. rewrite P2. auto.
Qed.

Lemma alist_next_calm l d d' l' x : alist_ok l -> dev_ok d -> alist_next l d = (d', (l', x)) -> evolves d d' /\ alist_ok l' /\
  match x with None => (lrest l' <= lrest l)%nat | Some r => calmd d d' r /\ forall e, r = Ok e -> entry_ok e /\ (lrest l' < lrest l)%nat end.
Proof.
  intros Hl Hd H. pose proof (alist_next_evolves l d) as Ev. rewrite H in Ev. cbn [fst] in Ev. split; [exact Ev|].
  destruct l as [sl p|v]; cbn [alist_next] in H.
  - destruct sl as [|b t]. { injection H as <- <- <-. split; auto. } set (sl := b :: t) in *.
    pose proof (le_new_settles res_ok (fun _ => cursor_exact) p) as Hs. assert (Hc : forall n, frm res_ok bytes_ok (fun _ => cursor_exact n)).
    { intros n s d0 Hs0 Hd0. exact (read_exact_settles res_ok (fun _ => res_read) res_freads s n d0 Hs0 Hd0). }
    specialize (Hs Hc (res_new sl p) no_dev Hl (Forall_nil _)). apply (settles_inv (le_new cursor_exact p (res_new sl p) no_dev)) in Hs. destruct (le_new cursor_exact p (res_new sl p) no_dev) as [d1 [s1 y]].
    destruct Hs as (_ & _ & C & Q). cbn [snd] in H. destruct y as [e|e| |].
    + destruct (Q e eq_refl) as (Q1 & Q2). destruct (le_length e <=? zlen sl) eqn:El; injection H as <- <- <-.
      * split; [exact (bytes_ok_zdrop _ _ Hl)|]. split; [exact Logic.I|]. intros e' [= <-]. split; [split; auto|]. change (length (zdrop (le_length e) sl) < length sl)%nat. pose proof (zlen_zdrop (le_length e) sl) as Hz. pose proof (zlen_nonneg sl). unfold zlen in *. lia.
      * split; auto.
    + injection H as <- <- <-. split; auto. split; [|discriminate]. destruct e; try exact Logic.I. destruct k; try exact Logic.I.
      exfalso. unfold calmd, events, no_dev in C. cbn in C. lia.
    + injection H as <- <- <-. split; auto. split; [exact Logic.I|discriminate].
    + destruct C.
  - destruct (nr_len v <=? nr_stream_position v) eqn:E0. { injection H as <- <- <-. split; auto. }
    pose proof (le_new_settles (nr_sane false) (fun _ => attached_exact nr_read) (nr_data_position v)
      (fun n => frm_attached (nr_sane false) (fun _ => nr_read) n nr_freads) v d Hl Hd) as Hs. apply (settles_inv (le_new (attached_exact nr_read) (nr_data_position v) v d)) in Hs.
    destruct (le_new (attached_exact nr_read) (nr_data_position v) v d) as [d1 [v1 y]]. destruct Hs as (E1 & _ & C & Q).
    destruct y as [e|e| |]; try (injection H as <- <- <-; split; auto; split; [exact C|discriminate]).
    destruct (Q e eq_refl) as (Q1 & Q2). destruct (nr_seek v (SCurrent (le_length e)) d1) as [d2 [v2 z]] eqn:E2.
    destruct (nr_seek_calm v (SCurrent (le_length e)) d1 d2 v2 z Hl ltac:(split; unfold I64_MIN, I64_MAX, U16_MAX in *; lia) E2) as (S1 & -> & S3).
    destruct z as [q|x0| |]; injection H as <- <- <-; (split; [exact S1|]); (split; [try exact Logic.I; exact (calm_calmd d d1 _ S3)|]); try discriminate.
    intros e' [= <-]. split; [split; auto|]. destruct (nr_seek_forward v (le_length e) d1 d1 v2 q Hl ltac:(split; [lia|apply Q1]) E2) as (P1 & P2). cbn [lrest]. rewrite P1, P2. lia.
Qed.
Lemma alist_of_sval_ok v : sval_ok v -> alist_ok (alist_of_sval v).
Proof. destruct v; auto. Qed.
Lemma le_to_attribute_calm e f : file_ok f -> calm (le_to_attribute e f) /\ forall a, le_to_attribute e f = Ok a -> at_file a = f /\ 0 <= at_offset a /\ at_entries a = None.
Proof.
  intros Hf. unfold le_to_attribute. destruct (negb _); [split; [exact Logic.I|discriminate]|]. pose proof (calm_le_ty e) as C.
  destruct (le_ty e) as [ty|x| |]; cbn [rbind]; try (split; [exact C|discriminate]). now apply find_resident_calm.
Qed.

(** ** Values that are spread over an attribute list *)
Definition druns_ok (s : druns) : Prop := 0 <= dr_off s /\ 0 <= dr_prev s <= U64_MAX.
Lemma druns_start_ok : druns_ok druns_start.
Proof. split; cbn; unfold U64_MAX; lia. Qed.
Lemma druns_step cs data p s ss s' it : 1 <= cs -> bytes_ok data -> druns_ok s -> ss_sane false ss -> druns_next cs data p s = (s', it) ->
  druns_ok s' /\ match it with
                 | None => True
                 | Some (Ok r) => ss_sane false (mkSS (Some r) (ss_pos ss) (ss_size ss)) /\ (length (zdrop (dr_off s') data) < length (zdrop (dr_off s) data))%nat
                 | Some (Err e) => calm (Err e : res run)
                 | Some Panic => True
                 | Some OutOfFuel => False
                 end.
Proof.
  intros Hcs Hd (Ho & Hp) Hss H.
  assert (Hv : nr_sane false (mkNrv cs data p s ss)) by (split; cbn; auto; intros; discriminate).
  destruct (nr_next_data_run (mkNrv cs data p s ss)) as [v x] eqn:E. destruct (nr_next_sane false _ _ _ Hv E) as (N1 & N2 & N3 & N4 & N5 & _).
  unfold nr_next_data_run in E. cbn [nv_cs nv_data nv_position nv_runs nv_ss] in E. rewrite H in E.
  destruct it as [[r|e| |]|]; injection E as <- <-; pose proof (ns_off _ _ N1) as O; pose proof (ns_prev _ _ N1) as P; cbn [nv_runs nv_set_ss] in O, P; (split; [split; auto|]); auto.
  - split; [exact (ns_ss _ _ N1)|]. exact (N4 eq_refl).
  - apply calm_fine; [exact Logic.I|]. intros [= ->]. congruence.
Qed.

Definition entries_ok (o : option alist) : Prop := forall l, o = Some l -> alist_ok l.
Definition state_ok (o : option attr_state) : Prop := forall a, o = Some a -> file_ok (as_file a) /\ forall s, as_runs a = Some s -> druns_ok s.
Record lv_ok (v : lval) : Prop := {
  lo_nt : nt_good (lv_ntfs v); lo_initial : alist_ok (lv_initial v); lo_entries : entries_ok (lv_entries v); lo_state : state_ok (lv_attr v);
  lo_ss : ss_sane false (lv_ss v); lo_size : 0 <= lv_size v <= U64_MAX; lo_same : ss_size (lv_ss v) = lv_size v }.

Definition erest (v : lval) : nat := match lv_entries v with Some l => S (lrest l) | None => 0 end.
Definition rrest (v : lval) : nat :=
  match lv_attr v with
  | Some a => match as_runs a with
    | Some s => match (let? at_ := attr_new (as_file a) (as_offset a) None in attr_nr_data_and_position at_) with
      | Ok (data, _) => length (zdrop (dr_off s) data)
      | _ => 0%nat end
    | None => 0%nat end
  | None => 0%nat
  end.
Definition before (v' v : lval) : Prop := (erest v' < erest v)%nat \/ (erest v' = erest v)%nat /\ (rrest v' < rrest v)%nat.
Lemma before_wf : well_founded before.
Proof.
  assert (H : forall a b v, (erest v < a)%nat -> (rrest v < b)%nat -> Acc before v).
  { induction a as [|a IHa]; [lia|]. induction b as [|b IHb]; [lia|]. intros v Ha Hb. constructor. intros w [Hw|(Hw1 & Hw2)].
    - apply (IHa (S (rrest w))); lia.
    - destruct (Nat.eq_dec (erest v) a) as [E|E]; [|apply (IHa (S (rrest w))); lia]. apply IHb; lia. }
  intros v. apply (H (S (erest v)) (S (rrest v)) v); lia.
Qed.

Lemma lv_set_ss_ok v s : lv_ok v -> ss_sane false s -> ss_size s = lv_size v -> lv_ok (lv_set_ss v s).
Proof. intros [H1 H2 H3 H4 H5 H6 H7] H Hs. split; auto. Qed.

Lemma lv_next_data_run_calm v v' x : lv_ok v -> lv_next_data_run v = (v', x) -> lv_ok v' /\ calm x /\ lv_entries v' = lv_entries v /\
  ss_pos (lv_ss v') = ss_pos (lv_ss v) /\ (x = Ok true -> (rrest v' < rrest v)%nat).
Proof.
  intros Hv H. pose proof Hv as [H1 H2 H3 H4 H5 H6 H7]. unfold lv_next_data_run in H. unfold rrest at 2.
  destruct (lv_attr v) as [a|] eqn:Ea; [|injection H as <- <-; splits; auto; try exact Logic.I; discriminate].
  destruct (H4 a eq_refl) as (F & R). destruct (as_runs a) as [s|] eqn:Er; [|injection H as <- <-; splits; auto; try exact Logic.I; discriminate].
  set (v0 := lv_set_attr v _) in *.
  assert (Hv0 : lv_ok v0). { split; cbn; auto. intros b [= <-]. cbn. split; auto. discriminate. }
  set (m := let? at_ := _ in _) in *. assert (Cm : calm m) by (unfold m; calmt).
  assert (Hb : forall data p, m = Ok (data, p) -> bytes_ok data).
  { intros data p Em. unfold m in Em. destruct (attr_new _ _ _) as [at_|? | |] eqn:E; cbn [rbind] in Em; try discriminate.
    apply attr_new_ok in E as (-> & _). exact (nr_data_bytes (mkAttr (as_file a) (as_offset a) None) data p F Em). }
  destruct m as [[data p]|e| |] eqn:Em; try (injection H as <- <-; splits; auto; discriminate).
  specialize (Hb data p eq_refl). destruct (druns_next (cluster_size (lv_ntfs v)) data p s) as [s' it] eqn:E.
  destruct (druns_step _ _ _ _ _ _ _ (proj1 (proj1 H1)) Hb (R s eq_refl) H5 E) as (D1 & D2).
  destruct it as [[r|e| |]|]; try (injection H as <- <-; splits; auto; try exact Logic.I; discriminate).
  destruct D2 as (D2 & D3). injection H as <- <-. splits; auto; try exact Logic.I.
  - split; cbn; auto. intros b [= <-]. cbn. split; auto. now intros s0 [= <-].
  - intros _. unfold rrest. cbn [lv_attr lv_set_attr as_runs as_file as_offset]. fold m. rewrite Em. exact D3.
Qed.

Lemma lv_next_entry_calm v d d' v' x : lv_ok v -> dev_ok d -> lv_next_entry v d = (d', (v', x)) -> evolves d d' /\ lv_ok v' /\
  match x with None => True | Some r => calmd d d' r /\ forall e, r = Ok e -> entry_ok e /\ (erest v' < erest v)%nat end.
Proof.
  intros Hv Hd H. pose proof Hv as [H1 H2 H3 H4 H5 H6 H7]. unfold lv_next_entry in H. unfold erest at 2.
  destruct (lv_entries v) as [l|] eqn:El; [|injection H as <- <- <-; splits; auto using evolves_refl].
  destruct (alist_next l d) as [d1 [l1 y]] eqn:E. destruct (alist_next_calm _ _ _ _ _ (H3 l eq_refl) Hd E) as (Ev & A & B).
  assert (Hset : forall o, entries_ok o -> lv_ok (lv_set_entries v o)) by (intros o Ho; split; cbn; auto).
  assert (Hl1 : entries_ok (Some l1)) by (intros l2 [= <-]; exact A). assert (Hn : entries_ok None) by (intros l2 [=]).
  destruct y as [[e|e| |]|]; try (injection H as <- <- <-; splits; auto; try apply B; try discriminate; fail).
  - destruct B as (_ & B). destruct (B e eq_refl) as (B1 & B2). destruct (_ =? _).
    + pose proof (calm_le_ty e) as C. destruct (le_ty e) as [ty|x0| |].
      2-4: injection H as <- <- <-; splits; auto; try discriminate; try exact (calm_calmd d d1 _ C).
      destruct (_ =? _); injection H as <- <- <-; splits; auto; try exact Logic.I. intros e' [= <-]. split; auto. unfold erest. cbn [lv_entries lv_set_entries]. lia.
    + injection H as <- <- <-. splits; auto.
Qed.

Lemma lv_next_attribute_calm v d d' v' x : lv_ok v -> dev_ok d -> lv_next_attribute v d = (d', (v', x)) -> evolves d d' /\ lv_ok v' /\ calmd d d' x /\
  (x = Ok true -> (erest v' < erest v)%nat).
Proof.
  intros Hv Hd H. unfold lv_next_attribute in H. destruct (lv_next_entry v d) as [d1 [v1 y]] eqn:E1.
  destruct (lv_next_entry_calm _ _ _ _ _ Hv Hd E1) as (Ev & A & B).
  destruct y as [[e|e| |]|]; try (injection H as <- <- <-; splits; auto; try apply B; try exact Logic.I; discriminate).
  destruct B as (_ & B). destruct (B e eq_refl) as ((B1 & B1') & B2). pose proof (dev_ok_evolves _ _ Ev Hd) as Hd1.
  pose proof (ntfs_file_calm (lv_ntfs v) (le_number e) d1 (lo_nt _ Hv) B1' Hd1) as F. unfold le_to_file in H.
  destruct (ntfs_file (lv_ntfs v) (le_number e) d1) as [d2 y2]. destruct F as (Ev2 & C2 & F2). pose proof (evolves_trans _ _ _ Ev Ev2) as Ev3.
  destruct y2 as [f|x2| |]; try (injection H as <- <- <-; splits; auto; try exact (calmd_trans _ _ _ _ Ev C2); discriminate).
  specialize (F2 f eq_refl). destruct (le_to_attribute_calm e f F2) as (C3 & F3).
  destruct (le_to_attribute e f) as [a|x3| |]; try (injection H as <- <- <-; splits; auto; try exact (calm_calmd d d2 _ C3); discriminate).
  destruct (F3 a eq_refl) as (A1 & A2 & A3). pose proof (calm_lv_attr_runs a) as C4. destruct (lv_attr_runs a) as [[data p]|x4| |] eqn:E4;
    try (injection H as <- <- <-; splits; auto; try exact (calm_calmd d d2 _ C4); discriminate).
  assert (Hb : bytes_ok data).
  { unfold lv_attr_runs in E4. destruct (attr_is_resident a) as [[]|? | |]; cbn [rbind] in E4; try discriminate. apply (nr_data_bytes a data p); auto. now rewrite A1. }
  destruct (druns_next (cluster_size (lv_ntfs v)) data p druns_start) as [s' it] eqn:E5.
  destruct (druns_step _ _ _ _ _ _ _ (proj1 (proj1 (lo_nt _ Hv))) Hb druns_start_ok (lo_ss _ A) E5) as (D1 & D2).
  destruct it as [[r|x5| |]|]; try (injection H as <- <- <-; splits; auto; try exact (calm_calmd d d2 _ D2); try exact Logic.I; discriminate).
  destruct D2 as (D2 & D3). injection H as <- <- <-. splits; auto; try exact Logic.I.
  destruct A as [G1 G2 G3 G4 G5 G6 G7]. split; cbn; auto. intros b [= <-]. cbn. split; auto. now intros s0 [= <-].
Qed.

Lemma lv_advance_calm v d d' v' x : lv_ok v -> dev_ok d -> lv_advance v d = (d', (v', x)) -> evolves d d' /\ lv_ok v' /\ calmd d d' x /\ (x = Ok true -> before v' v).
Proof.
  intros Hv Hd H. unfold lv_advance in H. destruct (lv_next_data_run v) as [v1 y] eqn:E. destruct (lv_next_data_run_calm _ _ _ Hv E) as (H1 & H2 & H3 & H4 & H5).
  assert (He : erest v1 = erest v) by (unfold erest; now rewrite H3).
  destruct y as [[]|e| |]; try (injection H as <- <- <-; splits; auto using evolves_refl; try exact (calm_calmd d d _ H2); try discriminate; fail).
  - injection H as <- <- <-. splits; auto using evolves_refl. intros _. right. auto.
  - destruct (lv_next_attribute_calm _ _ _ _ _ H1 Hd H) as (N1 & N2 & N3 & N4). splits; auto. intros Hx. left. rewrite <- He. auto.
Qed.
Lemma lv_rewind_calm v d d' v' x : lv_ok v -> dev_ok d -> lv_rewind v d = (d', (v', x)) -> evolves d d' /\ lv_ok v' /\ calmd d d' x.
Proof.
  intros Hv Hd H. unfold lv_rewind in H. set (w := lv_set_ss _ _) in *.
  assert (Hw : lv_ok w). { destruct Hv as [H1 H2 H3 H4 H5 H6 H7]. split; cbn; auto. - now intros l [= <-]. - split; [cbn; unfold U64_MAX; lia|]. split; auto. intros r [=]. }
  destruct (lv_next_attribute w d) as [d1 [v1 y]] eqn:E. destruct (lv_next_attribute_calm _ _ _ _ _ Hw Hd E) as (N1 & N2 & N3 & N4).
  destruct y as [b|e| |]; injection H as <- <- <-; splits; auto.
Qed.

Lemma before_same v w u : erest w = erest v -> rrest w = rrest v -> before u w -> before u v.
Proof. unfold before. intros -> ->. auto. Qed.

Lemma lv_read_loop_settles v : lv_ok v -> forall n acc d, dev_ok d -> bytes_ok acc ->
  settles (fun k => stream_read_loop lv_ops k v n acc d) (post lv_ok (fun bs => bytes_ok bs /\ zlen bs <= Z.max n (zlen acc)) d).
Proof.
  induction (before_wf v) as [v _ IHv].
  assert (H : forall m w n acc d, (Z.to_nat (n - zlen acc) < m)%nat -> erest w = erest v -> rrest w = rrest v -> lv_ok w -> dev_ok d -> bytes_ok acc ->
    settles (fun k => stream_read_loop lv_ops k w n acc d) (post lv_ok (fun bs => bytes_ok bs /\ zlen bs <= Z.max n (zlen acc)) d)).
  { induction m as [|m IHm]; intros w n acc d Hm He Hr Hw Hd Ha; [lia|]. apply settles_S. cbn [stream_read_loop].
    destruct (n <=? zlen acc) eqn:En.
    { apply settles_const. ps; auto using evolves_refl; try exact Logic.I. intros a [= <-]. split; auto. lia. }
    cbn [so_ss so_set so_advance lv_ops]. destruct (ss_read_data_run (lv_ss w) (n - zlen acc) d) as [d1 [s1 y]] eqn:E1.
    pose proof (ss_read_data_run_evolves (lv_ss w) (n - zlen acc) d) as Ev. rewrite E1 in Ev. cbn [fst] in Ev.
    destruct (ss_read_sane false (lv_ss w) (n - zlen acc) d d1 s1 y (lo_ss _ Hw) ltac:(lia) E1) as (R1 & R2 & R3 & R4 & R5). pose proof (dev_ok_evolves _ _ Ev Hd) as Hd1.
    assert (Hw1 : lv_ok (lv_set_ss w s1)) by (apply lv_set_ss_ok; auto; rewrite R2; apply (lo_same _ Hw)).
    assert (Cy : calmd d d1 y) by (now apply calmd_fine).
    destruct y as [bs|e| |]; try (apply settles_const; ps; auto; discriminate).
    destruct (R5 bs eq_refl) as (L1 & _). destruct bs as [|b t].
    - destruct (lv_advance (lv_set_ss w s1) d1) as [d2 [v2 z]] eqn:E2. destruct (lv_advance_calm _ _ _ _ _ Hw1 Hd1 E2) as (Ev2 & V2 & C2 & B2).
      pose proof (evolves_trans _ _ _ Ev Ev2) as Ev3. pose proof (calmd_trans _ _ _ _ Ev C2) as C3.
      destruct z as [[]|e| |]; try (apply settles_const; ps; auto; discriminate).
      + eapply settles_impl; [exact (IHv v2 (before_same v (lv_set_ss w s1) v2 He Hr (B2 eq_refl)) V2 n acc d2 (dev_ok_evolves _ _ Ev2 Hd1) Ha)|].
        intros (d3 & v3 & x3) (F1 & F2 & F3 & F4). ps; auto; [exact (evolves_trans _ _ _ Ev3 F1)|exact (calmd_trans _ _ _ _ Ev3 F3)].
      + apply settles_const. ps; auto. intros a [= <-]. split; auto. lia.
    - pose proof (ss_read_bytes _ _ _ _ _ _ Hd E1) as Hb. set (bs := b :: t) in *. assert (Hpos : 1 <= zlen bs) by (unfold bs; rewrite zlen_cons; pose proof (zlen_nonneg t); lia).
      change (settles (fun k => stream_read_loop lv_ops k (lv_set_ss w s1) n (acc ++ bs) d1) (post lv_ok (fun bs => bytes_ok bs /\ zlen bs <= Z.max n (zlen acc)) d)).
      eapply settles_impl; [apply (IHm (lv_set_ss w s1) n (acc ++ bs) d1); auto; [rewrite zlen_app; lia|rewrite bytes_ok_app; auto]|].
      intros (d3 & v3 & x3) (F1 & F2 & F3 & F4). ps; auto; [exact (evolves_trans _ _ _ Ev F1)|exact (calmd_trans _ _ _ _ Ev F3)|].
      intros a Hx. destruct (F4 a Hx) as (G1 & G2). rewrite zlen_app in G2. split; auto. lia. }
  intros Hv n acc d Hd Ha. apply (H (S (Z.to_nat (n - zlen acc))) v); auto.
Qed.
Lemma lv_freads : freads lv_ok (fun k => lv_read k).
Proof.
  intros v n d Hv Hd. unfold lv_read. eapply settles_impl; [exact (lv_read_loop_settles v Hv n [] d Hd (Forall_nil _))|].
  intros (d1 & v1 & x) (F1 & F2 & F3 & F4). ps; auto. intros a Hx. destruct (F4 a Hx) as (G1 & G2). change (zlen (@nil Z)) with 0 in G2. split; auto. lia.
Qed.

Lemma ss_seek_sane s is_start left s1 left1 y : ss_sane false s -> left <= U64_MAX -> 0 < left -> (is_start = false -> left <= I64_MAX) ->
  ss_seek_data_run s is_start left = (s1, left1, y) -> ss_sane false s1 /\ ss_size s1 = ss_size s /\ ss_pos s1 = ss_pos s /\ left1 <= left /\ exists t, y = Ok t.
Proof.
  intros Hs Hl Hl0 Hl2 E1. pose proof Hs as (S1 & S2 & S3). unfold ss_seek_data_run in E1. destruct (ss_run s) as [r|] eqn:Er.
  2: { injection E1 as <- <- <-. splits; eauto; lia. }
  destruct (S3 r eq_refl) as (R1 & R2 & R3 & R4).
  destruct (left <? run_remaining r) eqn:E2.
  2: { injection E1 as <- <- <-. splits; eauto; unfold run_remaining; lia. }
  unfold run_remaining in E2. unfold run_seek in E1.
  destruct is_start.
  - cbn [seek_contiguous] in E1. injection E1 as <- <- <-. splits; eauto; try lia. split; [exact S1|]. split; [exact S2|]. intros r0 [= <-].
    split; [cbn; lia|]. split; [cbn; lia|]. split; auto.
  - assert (Ht : to_i64 left = left) by (apply to_i64_small; lia). rewrite Ht in E1.
    unfold seek_contiguous in E1. replace (0 <=? left) with true in E1 by lia. unfold checked_add64 in E1.
    replace (r_sp r + left <=? U64_MAX) with true in E1 by lia.
    injection E1 as <- <- <-. splits; eauto; try lia. split; [exact S1|]. split; [exact S2|]. intros r0 [= <-].
    split; [cbn; lia|]. split; [cbn; lia|]. split; auto.
Qed.
Lemma lv_next_entry_ntfs v d d' v' x : lv_next_entry v d = (d', (v', x)) -> lv_ss v' = lv_ss v.
Proof. intros H. now apply lv_next_entry_ss in H. Qed.

Lemma lv_seek_loop_settles v : lv_ok v -> forall is_start left d, dev_ok d -> left <= U64_MAX -> (is_start = false -> left <= I64_MAX) ->
  settles (fun k => stream_seek_loop lv_ops k v is_start left d)
    (fun y => post lv_ok (fun _ => True) d y /\ ss_pos (lv_ss (fst (snd y))) = ss_pos (lv_ss v)).
Proof.
  induction (before_wf v) as [v _ IHv]. intros Hv is_start left d Hd Hl Hl2. apply settles_S. cbn [stream_seek_loop].
  destruct (left <=? 0) eqn:E0. { apply settles_const. split; auto. ps; auto using evolves_refl. exact Logic.I. }
  cbn [so_ss so_set so_advance lv_ops]. destruct (ss_seek_data_run (lv_ss v) is_start left) as [[s1 left1] y] eqn:E1.
  destruct (ss_seek_sane (lv_ss v) is_start left s1 left1 y (lo_ss _ Hv) Hl ltac:(lia) Hl2 E1) as (R1 & R2 & R3 & R4 & t & ->).
  assert (Hv1 : lv_ok (lv_set_ss v s1)) by (apply lv_set_ss_ok; auto; rewrite R2; apply (lo_same _ Hv)).
  destruct t. { apply settles_const. split; auto. ps; auto using evolves_refl. exact Logic.I. }
  destruct (lv_advance (lv_set_ss v s1) d) as [d2 [v2 z]] eqn:E2. destruct (lv_advance_calm _ _ _ _ _ Hv1 Hd E2) as (Ev2 & V2 & C2 & B2).
  destruct (lv_advance_pos _ _ _ _ _ E2) as (P1 & P2 & _). cbn [lv_ss lv_set_ss] in P1, P2.
  destruct z as [[]|e| |]; try solve [apply settles_const; split; [ps; auto|cbn; congruence]].
  - eapply settles_impl; [exact (IHv v2 (B2 eq_refl) V2 is_start left1 d2 (dev_ok_evolves _ _ Ev2 Hd) ltac:(lia) ltac:(intros HH; specialize (Hl2 HH); lia))|].
    intros (d3 & v3 & x3) ((F1 & F2 & F3 & F4) & F5). split; [ps; auto; [exact (evolves_trans _ _ _ Ev2 F1)|exact (calmd_trans _ _ _ _ Ev2 F3)]|]. cbn [fst snd] in *. congruence.
  - apply settles_const. split; [|cbn; congruence]. ps; auto. apply lv_set_ss_ok; auto; [|apply (lo_same _ V2)]. destruct (lo_ss _ V2) as (A1 & A2 & A3). split; auto. split; auto. intros r [=].
Qed.

Lemma lv_seek_finish v p0 d (y : dev * (lval * res unit)) pos :
  post lv_ok (fun _ => True) d y -> ss_pos (lv_ss (fst (snd y))) = p0 -> 0 <= p0 -> match pos with SStart n => 0 <= n <= U64_MAX | SCurrent n => 0 <= n /\ p0 + n <= U64_MAX | SEnd _ => True end ->
  (forall z, y = (d, (v, z)) -> True) ->
  post lv_ok (fun _ => True) d (stream_seek_finish lv_ops pos y).
Proof.
  intros Hp Hs Hp0 Hn _. destruct y as [d1 [v1 x]]. cbn [fst snd] in Hs. destruct Hp as (E & V & C & _). unfold stream_seek_finish.
  destruct x as [[]|e| |]; try (ps; auto; fail). destruct (lo_ss _ V) as (A1 & A2 & A3). destruct pos as [n|n|n]; cbn [so_ss so_set lv_ops].
  - ps; auto. apply lv_set_ss_ok; auto; [|apply (lo_same _ V)]. split; auto.
  - ps; auto.
  - destruct (U64_MAX <? _) eqn:E1; [ps; auto|]. ps; auto. apply lv_set_ss_ok; auto; [|apply (lo_same _ V)]. split; auto. cbn. lia.
Qed.
Lemma lv_seek_settles v sf d : lv_ok v -> dev_ok d -> seek_arg_ok sf -> settles (fun k => lv_seek k v sf d) (post lv_ok (fun _ => True) d).
Proof.
  intros Hv Hd Ha. unfold lv_seek, stream_seek. cbn [so_ss so_rewind lv_ops]. pose proof (lo_ss _ Hv) as (S1 & S2 & S3). pose proof (lo_same _ Hv) as Hsame. pose proof (lo_size _ Hv) as Hsize.
  destruct (optimize_seek_cases (lv_ss v) sf (lv_len v) Hsize S1 Ha) as [(Hq & Hdq & E)|[(Hq & Hdq & E)|(Hq & E)]];
    rewrite E; set (q := seek_target _ _ _) in *.
  - replace (0 <=? q - ss_pos (lv_ss v)) with true by lia.
    apply (settles_map (fun k => stream_seek_loop lv_ops k v false (q - ss_pos (lv_ss v)) d) (stream_seek_finish lv_ops (SCurrent (q - ss_pos (lv_ss v)))) _ _
      (lv_seek_loop_settles v Hv false (q - ss_pos (lv_ss v)) d Hd ltac:(unfold I64_MAX, U64_MAX in *; lia) ltac:(lia))).
    intros y (Hy & Hpos). apply (lv_seek_finish v (ss_pos (lv_ss v))); auto; lia.
  - destruct (lv_rewind v d) as [d1 [v1 z]] eqn:E1. destruct (lv_rewind_calm _ _ _ _ _ Hv Hd E1) as (Ev & V1 & C1).
    destruct z as [u|e| |]; try (apply settles_const; ps; auto; fail).
    apply (settles_map (fun k => stream_seek_loop lv_ops k v1 true q d1) (stream_seek_finish lv_ops (SStart q)) _ _
      (lv_seek_loop_settles v1 V1 true q d1 (dev_ok_evolves _ _ Ev Hd) ltac:(lia) ltac:(discriminate))).
    intros y (Hy & Hpos). pose proof (lv_seek_finish v1 (ss_pos (lv_ss v1)) d1 y (SStart q) Hy Hpos (proj1 (proj1 (lo_ss _ V1))) Hq ltac:(auto)) as H.
    destruct (stream_seek_finish lv_ops (SStart q) y) as [d3 [v3 x3]]. destruct H as (F1 & F2 & F3 & F4). ps; auto; [exact (evolves_trans _ _ _ Ev F1)|exact (calmd_trans _ _ _ _ Ev F3)].
  - apply settles_const. ps; auto using evolves_refl. exact Logic.I.
Qed.

(** ** Values of any kind *)
Definition av_ok (v : aval) : Prop := match v with AVSimple s => sval_ok s | AVList l => lv_ok l end.
Lemma sv_freads : freads sval_ok (fun _ => sv_read).
Proof.
  intros v n d Hv Hd. apply settles_const. destruct v as [r|r]; cbn [sv_read].
  - pose proof (settles_inv (res_read r n d) _ (res_freads r n d Hv Hd)) as H. destruct (res_read r n d) as [d1 [r1 x]]. exact H.
  - pose proof (settles_inv (nr_read r n d) _ (nr_freads r n d Hv Hd)) as H. destruct (nr_read r n d) as [d1 [r1 x]]. exact H.
Qed.
Lemma av_freads : freads av_ok (fun k => av_read k).
Proof.
  intros v n d Hv Hd. destruct v as [s|l]; cbn [av_read].
  - apply settles_const. pose proof (settles_inv (sv_read s n d) _ (sv_freads s n d Hv Hd)) as H. destruct (sv_read s n d) as [d1 [r1 x]]. exact H.
  - apply (settles_map (fun k => lv_read k l n d) (fun y => let '(d', (l', x)) := y in (d', (AVList l', x))) _ _ (lv_freads l n d Hv Hd)).
    intros (d1 & v1 & x) H. exact H.
Qed.
Lemma av_seek_settles v sf d : av_ok v -> dev_ok d -> seek_arg_ok sf -> settles (fun k => av_seek k v sf d) (post av_ok (fun _ => True) d).
Proof.
  intros Hv Hd Ha. destruct v as [s|l]; cbn [av_seek].
  - apply settles_const. destruct (sv_seek s sf d) as [d1 [r1 x]] eqn:E. destruct (sv_seek_calm2 _ _ _ _ _ _ Hv Ha E) as (H1 & -> & H3).
    ps; auto using evolves_refl. exact (calm_calmd d d _ H3).
  - apply (settles_map (fun k => lv_seek k l sf d) (fun y => let '(d', (l', x)) := y in (d', (AVList l', x))) _ _ (lv_seek_settles l sf d Hv Hd Ha)).
    intros (d1 & v1 & x) H. exact H.
Qed.

Definition attr_ok (a : attribute) : Prop := file_ok (at_file a) /\ entries_ok (at_entries a).
Lemma mpost_lift {A} (Q : A -> Prop) d (x : res A) : calm x -> (forall a, x = Ok a -> Q a) -> mpost Q d (d, x).
Proof. intros C H. mps; auto using evolves_refl. exact (calm_calmd d d _ C). Qed.
Lemma mpost_bind {A B} (P : A -> Prop) (Q : B -> Prop) (m : M A) (f : A -> M B) d : dev_ok d -> mpost P d (m d) ->
  (forall a d1, P a -> dev_ok d1 -> mpost Q d1 (f a d1)) -> mpost Q d (mbind m f d).
Proof.
  intros Hd Hm Hf. unfold mbind. destruct (m d) as [d1 x]. destruct Hm as (E & C & H). destruct x as [a|e| |]; try (mps; auto; discriminate).
  specialize (Hf a d1 (H a eq_refl) (dev_ok_evolves _ _ E Hd)). destruct (f a d1) as [d2 y]. destruct Hf as (E2 & C2 & H2). mps; auto; [exact (evolves_trans _ _ _ E E2)|exact (calmd_trans _ _ _ _ E C2)].
Qed.
Lemma mpost_try {A B} (Q : B -> Prop) (x : res A) (f : A -> M B) d : dev_ok d -> calm x -> (forall a, x = Ok a -> mpost Q d (f a d)) -> mpost Q d (mbind (mlift x) f d).
Proof.
  intros Hd C H. unfold mbind, mlift. destruct x as [a|e| |]; auto; mps; auto using evolves_refl; try discriminate. exact (calm_calmd d d _ C).
Qed.

Lemma lv_new_calm nt l inst ty size d : nt_good nt -> alist_ok l -> 0 <= size <= U64_MAX -> dev_ok d -> mpost lv_ok d (lv_new nt l inst ty size d).
Proof.
  intros Hn Hl Hs Hd. unfold lv_new. set (v := mkLv _ _ _ _ _ _ _ _). assert (Hv : lv_ok v).
  { split; cbn; auto. - now intros l0 [= <-]. - intros a [=]. - split; [cbn; unfold U64_MAX; lia|]. split; auto. intros r [=]. }
  destruct (lv_next_attribute v d) as [d1 [v1 y]] eqn:E. destruct (lv_next_attribute_calm _ _ _ _ _ Hv Hd E) as (N1 & N2 & N3 & N4).
  destruct y as [b|e| |]; mps; auto; try discriminate. now intros w [= <-].
Qed.
Lemma attr_value_calm nt a d : nt_good nt -> attr_ok a -> dev_ok d -> mpost av_ok d (attr_value nt a d).
Proof.
  intros Hn (Hf & He) Hd. unfold attr_value. destruct (at_entries a) as [l|].
  - apply mpost_try; auto; [apply calm_rd|]. intros size E1. apply (rd_bound 8 _ _ _ Hf ltac:(lia)) in E1.
    apply mpost_try; auto; [apply calm_rd|]. intros inst E2. apply mpost_try; auto; [apply calm_attr_ty|]. intros ty E3.
    apply (mpost_bind lv_ok); auto; [apply lv_new_calm; auto; unfold U64_MAX; lia|]. intros v d1 Hv Hd1. apply mpost_lift; [exact Logic.I|]. now intros x [= <-].
  - destruct (attr_value_simple_calm (cluster_size nt) a (proj1 (proj1 Hn)) Hf) as (C & V).
    apply mpost_try; auto. intros v Ev. apply mpost_lift; [exact Logic.I|]. intros x [= <-]. exact (V v Ev).
Qed.

(** ** The flattened iteration *)
Record attrs_ok (st : attrs) : Prop := { xo_file : file_ok (ax_file st); xo_raw : 0 <= ax_raw st; xo_list : entries_ok (ax_list st) }.
Definition item_ok (i : attr_item) : Prop := file_ok (ai_file i) /\ (forall f, ai_value_file i = Some f -> file_ok f) /\ entries_ok (ai_entries i).
Definition qrest (st : attrs) : nat := Z.to_nat (zlen (f_data (ax_file st)) - ax_raw st).
Definition qlist (st : attrs) : nat := match ax_list st with Some l => lrest l | None => 0 end.
Definition sooner (a b : attrs) : Prop := (qrest a < qrest b)%nat \/ (qrest a = qrest b)%nat /\ (qlist a < qlist b)%nat.
Lemma sooner_wf : well_founded sooner.
Proof.
  assert (H : forall a b v, (qrest v < a)%nat -> (qlist v < b)%nat -> Acc sooner v).
  { induction a as [|a IHa]; [lia|]. induction b as [|b IHb]; [lia|]. intros v Ha Hb. constructor. intros w [Hw|(Hw1 & Hw2)].
    - apply (IHa (S (qlist w))); lia.
    - destruct (Nat.eq_dec (qrest v) a) as [E|E]; [|apply (IHa (S (qlist w))); lia]. apply IHb; lia. }
  intros v. apply (H (S (qrest v)) (S (qlist v)) v); lia.
Qed.
Lemma sooner_trans a b c : sooner a b -> sooner b c -> sooner a c.
Proof. unfold sooner. lia. Qed.

Definition next_post (st : attrs) (d : dev) (y : dev * (attrs * item attr_item)) : Prop :=
  let '(d', (st', x)) := y in evolves d d' /\ attrs_ok st' /\
  match x with None => True | Some r => calmd d d' r /\ forall i, r = Ok i -> item_ok i /\ sooner st' st end.
Lemma next_post_trans st st1 d d1 y : sooner st1 st -> evolves d d1 -> next_post st1 d1 y -> next_post st d y.
Proof.
  destruct y as [d2 [st2 x]]. intros Hs He (E & A & B). split; [exact (evolves_trans _ _ _ He E)|]. split; auto. destruct x as [r|]; auto.
  destruct B as (C & B). split; [exact (calmd_trans _ _ _ _ He C)|]. intros i Hi. destruct (B i Hi). split; auto. eapply sooner_trans; eauto.
Qed.

Lemma attrs_entry_item_calm nt st l e ty d : nt_good nt -> attrs_ok st -> alist_ok l -> entry_ok e -> dev_ok d ->
  let '(d', (st', x)) := attrs_entry_item nt st l e ty d in evolves d d' /\ attrs_ok st' /\ qrest st' = qrest st /\ qlist st' = qlist st /\
  match x with None => True | Some r => calmd d d' r /\ forall i, r = Ok i -> item_ok i end.
Proof.
  intros Hn Hst Hl (_ & He) Hd. pose proof Hst as [X1 X2 X3]. unfold attrs_entry_item, le_to_file. cbv zeta. cbn [ax_file ax_raw ax_list].
  pose proof (ntfs_file_calm nt (le_number e) d Hn He Hd) as F. destruct (ntfs_file nt (le_number e) d) as [d1 y]. destruct F as (Ev & C & F).
  assert (Hs : forall k, attrs_ok (mkAttrs (ax_file st) (ax_raw st) (ax_list st) k)) by (intros k; split; auto).
  destruct y as [f|x| |]; try (splits; auto; discriminate). specialize (F f eq_refl).
  destruct (le_to_attribute_calm e f F) as (C2 & F2). destruct (le_to_attribute e f) as [a|x| |]; cbn [rbind]; try (splits; auto; try exact (calm_calmd d d1 _ C2); discriminate).
  destruct (F2 a eq_refl) as (A1 & A2 & A3). pose proof (calm_attr_is_resident a) as C3.
  destruct (attr_is_resident a) as [[]|x| |]; cbn [rbind]; try (splits; auto; try exact (calm_calmd d d1 _ C3); discriminate).
  - splits; auto; try exact Logic.I. intros i [= <-]. split; [exact X1|]. split; [now intros g [= <-]|intros l0 [=]].
  - splits; auto; try exact Logic.I. intros i [= <-]. split; [exact X1|]. split; [now intros g [= <-]|now intros l0 [= <-]].
Qed.

Ltac nps := unfold next_post; splits.
Lemma attrs_next_settles nt st : nt_good nt -> attrs_ok st -> forall d, dev_ok d -> settles (fun k => attrs_next k nt st d) (next_post st d).
Proof.
  intros Hn. induction (sooner_wf st) as [st _ IH]. intros Hst d Hd. pose proof Hst as [X1 X2 X3]. apply settles_S. cbn [attrs_next].
  assert (Hraw : forall o d1, entries_ok o -> evolves d d1 ->
    settles (fun k => match raw_next (ax_file st) (ax_raw st) with
        | (s', None) => (d1, (mkAttrs (ax_file st) s' o (ax_skip st), None))
        | (s', Some (Ok a)) =>
            let st1 := mkAttrs (ax_file st) s' o (ax_skip st) in
            match attr_ty a with
            | Ok ty =>
                if ty =? TY_AttributeList then
                  match attr_value_simple (cluster_size nt) a with
                  | Ok v => attrs_next k nt (mkAttrs (ax_file st) s' (Some (alist_of_sval v)) (ax_skip st)) d1
                  | Err x => (d1, (st1, Some (Err x)))
                  | Panic => (d1, (st1, Some Panic))
                  | OutOfFuel => (d1, (st1, Some OutOfFuel))
                  end
                else (d1, (st1, Some (Ok (mkItem (ax_file st) None (at_offset a) None))))
            | Err _ => (d1, (st1, Some (Ok (mkItem (ax_file st) None (at_offset a) None))))
            | Panic => (d1, (st1, Some Panic))
            | OutOfFuel => (d1, (st1, Some OutOfFuel))
            end
        | (s', Some (Err x)) => (d1, (mkAttrs (ax_file st) s' o (ax_skip st), Some (Err x)))
        | (s', Some Panic) => (d1, (mkAttrs (ax_file st) s' o (ax_skip st), Some Panic))
        | (s', Some OutOfFuel) => (d1, (mkAttrs (ax_file st) s' o (ax_skip st), Some OutOfFuel))
        end) (next_post st d)).
  { intros o d1 Ho Ev. destruct (raw_next (ax_file st) (ax_raw st)) as [s' y] eqn:E.
    assert (Hs' : ax_raw st <= s').
    { unfold raw_next in E. destruct (get_range _ _ _); [|injection E as <- <-; lia]. destruct (_ =? _); [injection E as <- <-; lia|].
      destruct (attr_new _ _ _) as [a|e| |] eqn:Ea; try (injection E as <- <-; lia). apply attr_new_ok in Ea as (-> & _).
      destruct (attr_length _) as [len|e| |] eqn:El; injection E as <- <-; try lia. apply (rd_bound 4 _ _ _ X1 ltac:(lia)) in El. lia. }
    assert (Hst1 : forall o2, entries_ok o2 -> attrs_ok (mkAttrs (ax_file st) s' o2 (ax_skip st))) by (intros o2 Ho2; split; auto; cbn; lia).
    destruct y as [y|]; [|apply settles_const; nps; auto; exact Logic.I].
    destruct (raw_next_calm _ _ _ _ X1 X2 E) as (C & H). destruct y as [a|e| |]; try (apply settles_const; nps; auto; try discriminate; exact (calm_calmd d d1 _ C)).
    destruct (H a eq_refl) as (A1 & A2 & A3 & A4 & A5). cbv zeta.
    assert (Hsoon : forall o2, sooner (mkAttrs (ax_file st) s' o2 (ax_skip st)) st).
    { intros o2. left. unfold qrest. cbn [ax_file ax_raw]. lia. }
    assert (Hitem : settles (fun _ : nat => (d1, (mkAttrs (ax_file st) s' o (ax_skip st), Some (Ok (mkItem (ax_file st) None (at_offset a) None))))) (next_post st d)).
    { apply settles_const. nps; auto; try exact Logic.I. intros i [= <-]. split; auto. split; [exact X1|]. split; [intros f [=]|intros l [=]]. }
    pose proof (calm_attr_ty a) as C1. destruct (attr_ty a) as [ty|e| |]; try exact Hitem; try solve [destruct C1]; try (apply settles_const; nps; auto; try discriminate; exact Logic.I).
    destruct (ty =? TY_AttributeList); [|exact Hitem].
    destruct (attr_value_simple_calm (cluster_size nt) a (proj1 (proj1 Hn)) ltac:(now rewrite A1)) as (C2 & V2).
    destruct (attr_value_simple (cluster_size nt) a) as [v|e| |]; try (apply settles_const; nps; auto; try discriminate; exact (calm_calmd d d1 _ C2)).
    assert (Hl : entries_ok (Some (alist_of_sval v))) by (intros l [= <-]; apply alist_of_sval_ok; auto).
    eapply settles_impl; [exact (IH _ (Hsoon (Some (alist_of_sval v))) (Hst1 _ Hl) d1 (dev_ok_evolves _ _ Ev Hd))|]. intros z Hz. exact (next_post_trans _ _ _ _ _ (Hsoon _) Ev Hz). }
  destruct (ax_list st) as [l|] eqn:El; [|exact (Hraw None d ltac:(intros l [=]) (evolves_refl d))].
  destruct (alist_next l d) as [d1 [l1 y]] eqn:E. destruct (alist_next_calm _ _ _ _ _ (X3 l eq_refl) Hd E) as (Ev & A & B).
  assert (Ho : entries_ok (Some l1)) by (intros l2 [= <-]; exact A).
  pose proof (dev_ok_evolves _ _ Ev Hd) as Hd1.
  destruct y as [[e|e| |]|].
  - destruct B as (_ & B). destruct (B e eq_refl) as (B1 & B2). set (st1 := mkAttrs (ax_file st) (ax_raw st) (Some l1) (ax_skip st)).
    assert (Hst1 : attrs_ok st1) by (split; auto).
    assert (Hsoon : sooner st1 st). { right. split; [reflexivity|]. unfold qlist. rewrite El. exact B2. }
    assert (Hgo : settles (fun k => attrs_next k nt st1 d1) (next_post st d)).
    { eapply settles_impl; [exact (IH st1 Hsoon Hst1 d1 Hd1)|]. intros z Hz. exact (next_post_trans _ _ _ _ _ Hsoon Ev Hz). }
    pose proof (calm_le_ty e) as C1. destruct (le_ty e) as [ty|x| |]; try (apply settles_const; nps; auto; try discriminate; exact (calm_calmd d d1 _ C1)).
    destruct (le_number e =? f_number (ax_file st)); [exact Hgo|]. destruct (match ax_skip st with Some (i, t) => (le_instance e =? i) && (ty =? t) | None => false end); [exact Hgo|].
    apply settles_const. pose proof (attrs_entry_item_calm nt st1 l e ty d1 Hn Hst1 (X3 l eq_refl) B1 Hd1) as F.
    destruct (attrs_entry_item nt st1 l e ty d1) as [d2 [st2 z]]. destruct F as (F1 & F2 & F3 & F4 & F5).
    split; [exact (evolves_trans _ _ _ Ev F1)|]. split; auto. destruct z as [r|]; auto. destruct F5 as (F5 & F6). split; [exact (calmd_trans _ _ _ _ Ev F5)|].
    intros i Hi. split; auto. destruct Hsoon as [Hs|(Hs1 & Hs2)]; [left|right]; lia.
  - apply settles_const. nps; auto; [split; auto|apply B|discriminate].
  - apply settles_const. nps; auto; [split; auto|exact Logic.I|discriminate].
  - destruct B as ([] & _).
  - exact (Hraw (Some l1) d1 Ho Ev).
Qed.

(** ** Computations on the device that settle *)
Definition fm {A} (Q : A -> Prop) (m : nat -> M A) : Prop := forall d, dev_ok d -> settles (fun k => m k d) (mpost Q d).
Lemma fm_const {A} (Q : A -> Prop) (m : M A) : (forall d, dev_ok d -> mpost Q d (m d)) -> fm Q (fun _ => m).
Proof. intros H d Hd. apply settles_const. auto. Qed.
Lemma fm_lift {A} (Q : A -> Prop) (x : res A) : calm x -> (forall a, x = Ok a -> Q a) -> fm Q (fun _ => mlift x).
Proof. intros C H d Hd. apply settles_const. now apply mpost_lift. Qed.
Lemma fm_ret {A} (Q : A -> Prop) (a : A) : Q a -> fm Q (fun _ => mret a).
Proof. intros H. apply (fm_lift Q (Ok a)); [exact Logic.I|]. now intros b [= <-]. Qed.
Lemma fm_bind {A B} (P : A -> Prop) (Q : B -> Prop) (m : nat -> M A) (f : nat -> A -> M B) :
  fm P m -> (forall a, P a -> fm Q (fun k => f k a)) -> fm Q (fun k => mbind (m k) (f k)).
Proof.
  intros Hm Hf d Hd. unfold mbind.
  apply (settles_bind (fun k => m k d) (mpost P d) (fun k y => match y with
    | (d', Ok a) => f k a d' | (d', Err e) => (d', Err e) | (d', Panic) => (d', Panic) | (d', OutOfFuel) => (d', OutOfFuel) end)).
  { exact (Hm d Hd). }
  intros (d1 & x) (E1 & C1 & Q1). destruct x as [a|e| |].
  - eapply settles_impl; [exact (Hf a (Q1 a eq_refl) d1 (dev_ok_evolves _ _ E1 Hd))|].
    intros (d2 & y) (E2 & C2 & Q2). mps; auto; try exact (evolves_trans _ _ _ E1 E2); exact (calmd_trans _ _ _ _ E1 C2).
  - apply settles_const. mps; auto; discriminate.
  - apply settles_const. mps; auto; discriminate.
  - destruct C1.
Qed.
Lemma fm_try {A B} (Q : B -> Prop) (x : res A) (f : nat -> A -> M B) : calm x -> (forall a, x = Ok a -> fm Q (fun k => f k a)) ->
  fm Q (fun k => mbind (mlift x) (f k)).
Proof. intros C H. apply (fm_bind (fun a => x = Ok a) Q (fun _ => mlift x) f); auto. apply fm_lift; auto. Qed.

Lemma item_to_attribute_calm i : item_ok i -> calm (item_to_attribute i) /\ forall a, item_to_attribute i = Ok a -> attr_ok a.
Proof.
  intros (H1 & H2 & H3). unfold item_to_attribute. split; [apply calm_attr_new|]. intros a E. apply attr_new_ok in E as (-> & _).
  split; cbn; auto. destruct (ai_value_file i); auto.
Qed.

(** ** The searching loops: [accept] gets any fuel. *)
Ltac mfin := mps; auto; try solve [exact Logic.I | discriminate | eapply evolves_trans; eassumption | eapply calmd_trans; eassumption | eapply calm_calmd; eassumption
  | intros ? [= <-]; auto; discriminate | tauto].
Lemma attrs_search_settles {A} nt (accept : nat -> attr_item -> attribute -> M (option A)) (Q : A -> Prop) : nt_good nt ->
  (forall i a, item_ok i -> attr_ok a -> fm (fun o => forall x, o = Some x -> Q x) (fun k => accept k i a)) ->
  forall st, attrs_ok st -> forall d, dev_ok d ->
  exists N x, mpost (fun o => forall y, o = Some y -> Q y) d x /\ forall k j, (N <= k)%nat -> (N <= j)%nat -> attrs_search k nt (accept j) st d = x.
Proof.
  intros Hn Ha st. induction (sooner_wf st) as [st _ IH]. intros Hst d Hd.
  destruct (attrs_next_settles nt st Hn Hst d Hd) as (N1 & (d1 & st1 & x1) & (E1 & O1 & B1) & H1).
  assert (Hfin : forall z, mpost (fun o => forall y, o = Some y -> Q y) d z ->
    (forall k j, (N1 <= S k)%nat -> attrs_search (S k) nt (accept j) st d = z) ->
    exists N x, mpost (fun o => forall y, o = Some y -> Q y) d x /\ forall k j, (N <= k)%nat -> (N <= j)%nat -> attrs_search k nt (accept j) st d = x).
  { intros z Hz Hk. exists (S N1), z. split; auto. intros [|k] j Hk1 Hj; [lia|]. apply Hk. lia. }
  destruct x1 as [[i|e| |]|].
  - destruct B1 as (_ & B1). destruct (B1 i eq_refl) as (Hi & Hs). destruct (item_to_attribute_calm i Hi) as (C2 & H2).
    destruct (item_to_attribute i) as [a|e| |] eqn:Ei.
    + destruct (Ha i a Hi (H2 a eq_refl) d1 (dev_ok_evolves _ _ E1 Hd)) as (N2 & (d2 & x2) & (E2 & C3 & Q2) & H3).
      destruct x2 as [[x|]|e| |].
      * exists (S (N1 + N2)), (d2, Ok (Some x)). split; [mfin|].
        intros [|k] j Hk Hj; [lia|]. cbn [attrs_search]. rewrite H1 by lia. rewrite Ei, H3 by lia. reflexivity.
      * destruct (IH st1 Hs O1 d2 (dev_ok_evolves _ _ E2 (dev_ok_evolves _ _ E1 Hd))) as (N3 & z & Hz & H4).
        exists (S (N1 + N2 + N3)), z. split.
        { destruct z as [d3 y]. destruct Hz as (E3 & C4 & Q4). pose proof (evolves_trans _ _ _ E1 E2) as E12. mfin. }
        intros [|k] j Hk Hj; [lia|]. cbn [attrs_search]. rewrite H1 by lia. rewrite Ei, H3 by lia. apply H4; lia.
      * exists (S (N1 + N2)), (d2, Err e). split; [mfin|].
        intros [|k] j Hk Hj; [lia|]. cbn [attrs_search]. rewrite H1 by lia. rewrite Ei, H3 by lia. reflexivity.
      * exists (S (N1 + N2)), (d2, Panic). split; [mfin|].
        intros [|k] j Hk Hj; [lia|]. cbn [attrs_search]. rewrite H1 by lia. rewrite Ei, H3 by lia. reflexivity.
      * destruct C3.
    + apply (Hfin (d1, Err e)); [mfin|]. intros k j Hk. cbn [attrs_search]. rewrite H1 by lia. now rewrite Ei.
    + apply (Hfin (d1, Panic)); [mfin|]. intros k j Hk. cbn [attrs_search]. rewrite H1 by lia. now rewrite Ei.
    + destruct C2.
  - apply (Hfin (d1, Err e)); [mfin|]. intros k j Hk. cbn [attrs_search]. now rewrite H1 by lia.
  - apply (Hfin (d1, Panic)); [mfin|]. intros k j Hk. cbn [attrs_search]. now rewrite H1 by lia.
  - destruct B1 as ([] & _).
  - apply (Hfin (d1, Ok None)); [mfin|]. intros k j Hk. cbn [attrs_search]. now rewrite H1 by lia.
Qed.
Lemma attrs_search_fm {A} nt (accept : nat -> attr_item -> attribute -> M (option A)) (Q : A -> Prop) st : nt_good nt ->
  (forall i a, item_ok i -> attr_ok a -> fm (fun o => forall x, o = Some x -> Q x) (fun k => accept k i a)) -> attrs_ok st ->
  fm (fun o => forall x, o = Some x -> Q x) (fun k => attrs_search k nt (accept k) st).
Proof. intros Hn Ha Hst d Hd. destruct (attrs_search_settles nt accept Q Hn Ha st Hst d Hd) as (N & x & Hx & H). exists N, x. auto. Qed.

Lemma attrs_start_ok f st : file_ok f -> attrs_start f = Ok st -> attrs_ok st.
Proof. intros Hf. unfold attrs_start. destruct (raw_start f) as [s|e| |] eqn:E; cbn [rbind]; try discriminate. intros [= <-]. split; cbn; auto; [exact (raw_start_ok f s Hf E)|intros l [=]]. Qed.
Lemma attrs_start_calm f : calm (attrs_start f).
Proof. unfold attrs_start. apply calm_bind; [apply calm_rd|]. intros; exact Logic.I. Qed.

Lemma find_attribute_fm nt f ty name : nt_good nt -> file_ok f -> fm item_ok (fun k => find_attribute k nt f ty name).
Proof.
  intros Hn Hf. unfold find_attribute. apply fm_try; [apply attrs_start_calm|]. intros st Est. apply attrs_start_ok in Est; auto.
  eapply fm_bind; [apply (attrs_search_fm nt (fun _ i a => mlift (let? m := attr_matches a ty name None in Ok (if (m : bool) then Some i else None))) item_ok); auto|].
  - intros i a Hi _. apply fm_lift; [calmt|]. intros o E. destruct (attr_matches a ty name None) as [[]|e| |]; cbn [rbind] in E; try discriminate; injection E as <-; intros x [= <-]; auto.
  - intros [i|] Ho; apply fm_lift; try exact Logic.I; try discriminate. intros a [= <-]. auto.
Qed.

Lemma calm_upcase_cmp nt a b : calm (upcase_cmp nt a b).
Proof.
  unfold upcase_cmp. destruct (upcase_table nt) as [t|]; [|exact Logic.I]. revert b. induction a as [|x a IH]; intros [|y b]; cbn [upcase_cmp_loop]; try exact Logic.I.
  assert (Hu : forall c, calm (u16_to_uppercase t c)) by (intros c; unfold u16_to_uppercase; destruct (if 0 <=? c then _ else _); exact Logic.I).
  apply calm_bind; auto. intros u _. apply calm_bind; auto. intros w _. destruct (negb _); auto; exact Logic.I.
Qed.
Lemma file_data_fm nt f stream : nt_good nt -> file_ok f -> fm (fun o => forall i, o = Some i -> item_ok i) (fun k => file_data k nt f stream).
Proof.
  intros Hn Hf. unfold file_data. apply fm_try; [apply attrs_start_calm|]. intros st Est. apply attrs_start_ok in Est; auto.
  apply (attrs_search_fm nt (fun _ i a => mlift (data_accepts nt stream i a)) item_ok); auto. intros i a Hi _. unfold data_accepts. apply fm_lift.
  - apply calm_bind; [apply calm_attr_ty|]. intros ty _. destruct (negb _); [exact Logic.I|]. apply calm_bind; [apply calm_attr_name|]. intros n _.
    apply calm_bind; [|intros; exact Logic.I]. destruct stream; [exact Logic.I|]. apply calm_bind; [apply calm_upcase_cmp|]. intros; exact Logic.I.
  - intros o E x ->. destruct (attr_ty a) as [ty|e| |]; cbn [rbind] in E; try discriminate. destruct (negb _); [discriminate|].
    destruct (attr_name a) as [nm|e| |]; cbn [rbind] in E; try discriminate.
    destruct (match stream with [] => _ | _ => _ end) as [b|e| |] eqn:Eb in E; cbn [rbind] in E; try discriminate. destruct b; [|discriminate]. injection E as <-. exact Hi.
Qed.

(** ** Structured values *)
Definition new_ok {S A} (I : S -> Prop) (new : (Z -> RM S (list Z)) -> position -> Z -> RM S A) : Prop := forall rx : nat -> Z -> RM S (list Z),
  (forall n, frm I bytes_ok (fun k => rx k n)) -> forall p n, frm I (fun _ => True) (fun k => new (rx k) p n).
Lemma fn_new_ok {S} (I : S -> Prop) : new_ok I (@fn_new S).
Proof.
  intros rx Hrx p n. unfold fn_new. destruct (n <? 68); [apply frm_err; discriminate|].
  eapply frm_bind; [apply Hrx|]. intros h Hh. cbv zeta. destruct (n <? _); [apply frm_err; discriminate|]. destruct (3 <? _); [apply frm_err; discriminate|].
  eapply frm_bind; [apply Hrx|]. intros nm Hnm. apply frm_ret. exact Logic.I.
Qed.
Lemma si_new_ok {S} (I : S -> Prop) : new_ok I (@si_new S).
Proof.
  intros rx Hrx p n. unfold si_new. destruct (n <? 48); [apply frm_err; discriminate|].
  eapply frm_bind; [apply Hrx|]. intros h Hh. destruct (72 <=? n); [|apply frm_ret; exact Logic.I].
  eapply frm_bind; [apply Hrx|]. intros nm Hnm. apply frm_ret. exact Logic.I.
Qed.
Lemma vi_new_ok {S} (I : S -> Prop) : new_ok I (@vi_new S).
Proof.
  intros rx Hrx p n. unfold vi_new. destruct (n <? 12); [apply frm_err; discriminate|].
  eapply frm_bind; [apply Hrx|]. intros nm Hnm. apply frm_ret. exact Logic.I.
Qed.
Lemma frm_weak {S A} (I : S -> Prop) (Q R : A -> Prop) m : frm I Q m -> (forall a, Q a -> R a) -> frm I R m.
Proof. intros H HR s d Hs Hd. eapply settles_impl; [exact (H s d Hs Hd)|]. intros (d1 & s1 & x) (A1 & A2 & A3 & A4). ps; auto. Qed.
Lemma vn_new_ok {S} (I : S -> Prop) : new_ok I (@vn_new S).
Proof. intros rx Hrx p n. unfold vn_new. destruct (256 <? n); [apply frm_err; discriminate|]. eapply frm_weak; [apply Hrx|]. auto. Qed.
Lemma oi_new_ok {S} (I : S -> Prop) : new_ok I (@oi_new S).
Proof.
  intros rx Hrx p n. unfold oi_new. destruct (n <? 16); [apply frm_err; discriminate|].
  assert (H : forall b : bool, frm I (fun _ => True) (fun k => if b then rdo x <- rx k 16; rm_ret (Some (guid_of_bytes x)) else rm_ret None)).
  { intros []; [|apply frm_ret; exact Logic.I]. eapply frm_bind; [apply Hrx|]. intros x Hx. apply frm_ret. exact Logic.I. }
  eapply frm_bind; [apply Hrx|]. intros b0 H0. eapply frm_bind; [apply H|]. intros b1 _. eapply frm_bind; [apply H|]. intros b2 _. eapply frm_bind; [apply H|]. intros b3 _.
  apply frm_ret. exact Logic.I.
Qed.
Lemma attr_structured_fm {A} nt (new : (Z -> RM aval (list Z)) -> position -> Z -> RM aval A) ty a : nt_good nt -> new_ok av_ok new -> attr_ok a ->
  fm (fun _ => True) (fun k => attr_structured k nt new ty a).
Proof.
  intros Hn Hnew Ha. unfold attr_structured. apply fm_try; [apply calm_ensure|]. intros u _.
  apply (fm_bind av_ok _ (fun _ => attr_value nt a) (fun k => from_aval k new)).
  - apply fm_const. intros d Hd. apply attr_value_calm; auto.
  - intros v Hv d Hd. unfold from_aval.
    apply (settles_map (fun k => new (attached_exact (av_read k)) (av_data_position v) (av_len v) v d) (fun y => let '(d', (_, r)) := y in (d', r)) (post av_ok (fun _ => True) d)).
    + apply (Hnew (fun k => attached_exact (av_read k))); auto. intros n. apply frm_attached. exact av_freads.
    + intros (d1 & v1 & x) (A1 & A2 & A3 & A4). mps; auto.
Qed.
Lemma resident_value_bytes a v : file_ok (at_file a) -> attr_resident_value a = Ok v -> bytes_ok (rv_data v).
Proof.
  intros Hf E. unfold attr_resident_value in E.
  destruct (attr_validate_resident a); cbn [rbind] in E; try discriminate. destruct (attr_resident_value_offset a); cbn [rbind] in E; try discriminate.
  destruct (attr_resident_value_length a); cbn [rbind] in E; try discriminate. unfold idx_range in E. destruct (get_range _ _ _) eqn:E2; cbn [rbind] in E; try discriminate.
  injection E as <-. cbn. exact (get_range_bytes _ _ _ _ Hf E2).
Qed.
Lemma from_resident_calm {A} (new : (Z -> RM resv (list Z)) -> position -> Z -> RM resv A) v : new_ok res_ok new -> bytes_ok (rv_data v) -> calm (from_resident new v).
Proof.
  intros Hnew Hv. unfold from_resident, from_slice.
  assert (Hc : forall n, frm res_ok bytes_ok (fun _ => cursor_exact n)).
  { intros n s d0 Hs0 Hd0. exact (read_exact_settles res_ok (fun _ => res_read) res_freads s n d0 Hs0 Hd0). }
  pose proof (Hnew (fun _ => cursor_exact) Hc (res_data_position v) (zlen (rv_data v)) (res_new (rv_data v) (res_data_position v)) no_dev Hv (Forall_nil _)) as H.
  apply (settles_inv (new cursor_exact (res_data_position v) (zlen (rv_data v)) (res_new (rv_data v) (res_data_position v)) no_dev)) in H.
  destruct (new cursor_exact _ _ _ no_dev) as [d1 [s1 y]]. destruct H as (_ & _ & C & _). cbn [snd]. destruct y as [e|e| |]; auto. destruct e; try exact Logic.I. destruct k; try exact Logic.I.
  exfalso. unfold calmd, events, no_dev in C. cbn in C. lia.
Qed.
Lemma resident_structured_calm {A} (new : (Z -> RM resv (list Z)) -> position -> Z -> RM resv A) ty a : new_ok res_ok new -> file_ok (at_file a) ->
  calm (let? v := attr_resident_structured a ty in from_resident new v).
Proof.
  intros Hnew Ha. unfold attr_resident_structured. apply calm_bind.
  - apply calm_bind; [apply calm_ensure|]. intros u _. apply calm_bind; [apply calm_attr_is_resident|]. intros [|] _; [apply calm_resident_value|exact Logic.I].
  - intros v E. apply from_resident_calm; auto. destruct (attr_ensure_ty a ty) as [u|e| |]; cbn [rbind] in E; try discriminate.
    destruct (attr_is_resident a) as [[|]|e| |]; cbn [rbind] in E; try discriminate. eapply resident_value_bytes; eauto.
Qed.
Lemma file_name_of_fm nt f ns parent : nt_good nt -> file_ok f -> fm (fun _ => True) (fun k => file_name_of k nt f ns parent).
Proof.
  intros Hn Hf. unfold file_name_of. apply fm_try; [apply attrs_start_calm|]. intros st Est. apply attrs_start_ok in Est; auto.
  intros d Hd. eapply settles_impl; [apply (attrs_search_fm nt (fun fuel i a =>
    try ty <- attr_ty a;
    if negb (ty =? TY_FileName) then mret None else
    do fn <- attr_structured fuel nt fn_new TY_FileName a;
    try ns1 <- fn_namespace fn;
    if negb (match ns with Some n => ns1 =? n | None => true end) then mret None else
    if negb (match parent with Some p => fr_number (fn_parent fn) =? p | None => true end) then mret None else
    mret (Some fn)) (fun _ => True)); auto|].
  - intros i a Hi Ha. apply fm_try; [apply calm_attr_ty|]. intros ty _. destruct (negb _); [apply fm_ret; discriminate|].
    eapply fm_bind; [apply attr_structured_fm; auto; apply fn_new_ok|]. intros fn _. apply fm_try; [unfold fn_namespace; destruct (_ <=? _); exact Logic.I|].
    intros ns1 _. destruct (negb _); [apply fm_ret; auto|]. destruct (negb _); apply fm_ret; auto.
  - intros (d1 & x) (A1 & A2 & A3). mps; auto.
Qed.
