(** * Proofs for C55: commands that do not look up names terminate on any image. *)
From Coq Require Import Lia Wf_nat.
From Verif Require Import Base Dev Types Record DataRuns Stream NonResident Resident BootSector Attribute File Structured AttrList Upcase Index Time Volume Shell
  Spec SpecMisc SpecVolume SpecTotal BaseProofs DevProofs BootSectorProofs EvolveProofs TerminationProofs ReadLenProofs ShellProofs ShellSessionProofs ListTotalProofs.

Lemma upcase_read_fm nt : nt_good nt -> fm (fun _ => True) (fun k => upcase_read k nt).
Proof.
  intros Hn. unfold upcase_read. apply (fm_bind file_ok _ (fun _ => ntfs_file nt 10)).
  { apply fm_const. intros d Hd. apply ntfs_file_calm; auto. lia. }
  intros f Hf. eapply fm_bind; [apply file_data_fm; auto|]. intros o Ho. cbv beta in Ho.
  apply fm_try; [destruct o; exact Logic.I|]. intros i Hi. destruct o as [i'|]; [injection Hi as ->|discriminate]. specialize (Ho i eq_refl).
  destruct (item_to_attribute_calm i Ho) as (C & H). apply fm_try; auto. intros a Ea. apply fm_try; [apply calm_value_length|]. intros len _.
  destruct (negb _); [apply fm_lift; [exact Logic.I|discriminate]|].
  apply (fm_bind av_ok _ (fun _ => attr_value nt a)). { apply fm_const. intros d Hd. apply attr_value_calm; auto. }
  intros v Hv d Hd.
  apply (settles_map (fun k => rs_read_exact (av_read k) v UPCASE_TABLE_SIZE d) (fun y => match y with
    | (d', (_, Ok data)) => (d', Ok (units data)) | (d', (_, Err e)) => (d', Err e) | (d', (_, Panic)) => (d', Panic) | (d', (_, OutOfFuel)) => (d', OutOfFuel) end) (post av_ok bytes_ok d)).
  - exact (read_exact_settles av_ok (fun k => av_read k) av_freads v UPCASE_TABLE_SIZE d Hv Hd).
  - intros (d1 & v1 & x) (A1 & A2 & A3 & A4). destruct x; mps; auto.
Qed.
Lemma read_upcase_table_fm nt : nt_good nt -> fm nt_good (fun k => read_upcase_table k nt).
Proof. intros Hn. unfold read_upcase_table. eapply fm_bind; [apply upcase_read_fm; auto|]. intros t _. apply fm_ret. exact Hn. Qed.

Lemma dev_read_len n d d' bs : 0 <= n -> dev_read n d = (d', Ok bs) -> zlen bs <= n.
Proof.
  intros Hn. unfold dev_read. destruct (d_reads d) as [|[k|e] t]; intros E; try discriminate; injection E as _ <-; rewrite ?zlen_ztake; lia.
Qed.
Lemma dev_read_exact_loop_len fuel : forall n acc d d' bs, 0 <= n -> dev_read_exact_loop fuel n acc d = (d', Ok bs) -> zlen bs = zlen acc + n.
Proof.
  induction fuel as [|f IH]; intros n acc d d' bs Hn; cbn [dev_read_exact_loop]; destruct (n <=? 0) eqn:En; try (intros [= <- <-]; lia); try discriminate.
  destruct (dev_read n d) as [d1 [b|e| |]] eqn:E; try discriminate.
  - pose proof (dev_read_len _ _ _ _ Hn E). destruct b as [|x t]; [discriminate|]. intros H2. apply IH in H2; [|lia]. rewrite zlen_app in H2. lia.
  - destruct e; try discriminate. destruct k; try discriminate. apply IH. lia.
Qed.

Lemma ntfs_new_calm d : dev_ok d -> mpost nt_good d (ntfs_new d).
Proof.
  intros Hd. pose proof (ntfs_new_evolves d) as Ev. destruct (ntfs_new d) as [d' x] eqn:H. cbn [fst] in Ev.
  assert (Hg : calmd d d' x /\ forall nt, x = Ok nt -> nt_good nt); [|mps; tauto].
  unfold ntfs_new, mbind in H. destruct (dev_seek 0 d) as [d1 y] eqn:E1. pose proof (dev_seek_evolves 0 d) as Ev1. rewrite E1 in Ev1. cbn [fst] in Ev1.
  assert (Hs : y = Ok tt /\ d_pos d1 = 0 \/ (exists e, y = Err (EIo e)) /\ (events d1 < events d)%nat).
  { unfold dev_seek in E1. unfold events. destruct (d_seeks d) as [|[e|] t]; injection E1 as <- <-; cbn; [left|right|left]; eauto. split; [eauto|lia]. }
  destruct Hs as [(-> & P1)|((e & ->) & P)].
  2: { injection H as <- <-. split; [|discriminate]. destruct e; cbn; auto. }
  destruct (dev_read_exact_fuel 512 d1 ltac:(lia)) as (F1 & F2).
  destruct (dev_read_exact_loop_calm (length (d_reads d1) + 2) 512 [] d1 (dev_ok_evolves _ _ Ev1 Hd) (Forall_nil _)) as (C1 & C2).
  fold (dev_read_exact 512 d1) in C1, C2. pose proof (dev_read_exact_loop_len (length (d_reads d1) + 2) 512 [] d1) as L. fold (dev_read_exact 512 d1) in L.
  destruct (dev_read_exact 512 d1) as [d2 z]. cbn [snd] in *.
  destruct z as [data|e| |]; try (injection H as <- <-; split; [|discriminate]; apply calm_calmd, calm_fine; cbn; auto; congruence).
  specialize (L d2 data ltac:(lia) eq_refl). change (zlen []) with 0 in L. unfold mlift in H. injection H as <- <-.
  pose proof (ntfs_of_boot_spec data L (C2 _ eq_refl)) as B.
  assert (Hok : forall n, ntfs_of_boot (decode_boot data) = Ok n -> nt_good n).
  { intros n En. rewrite En in B. destruct B as (mft & [B1 B2 B3 B4 B5 B6 B7] & B8 & B9). destruct B3 as (spc & S1 & S2 & S3). destruct B5 as (-> & B5 & _).
    split; [split; [lia|]|].
    - intros p Hp. rewrite B8 in Hp. injection Hp as <-. nia.
    - destruct B6 as [(G1 & ->)|(G1 & ->)]; [nia|]. apply Z.pow_nonneg. lia. }
  destruct (ntfs_of_boot (decode_boot data)) as [n|e| |] eqn:En; try destruct B; split; auto; try discriminate; try exact Logic.I.
  unfold calmd. destruct e; try exact Logic.I.
  exfalso. clear -En. unfold ntfs_of_boot, boot_validate, bpb_record_size, bpb_mft_lcn, lcn_position, bpb_cluster_size, bpb_sectors_per_cluster, bpb_sector_size in En.
  repeat (let H := fresh in match type of En with context [match ?x with _ => _ end] => destruct x eqn:H end; cbn [rbind] in En; try discriminate).
Qed.

Definition shell_ok (sh : shell) : Prop := Forall file_ok (sh_dirs sh).
Lemma shell_open_fm : fm (fun ns => nt_good (fst ns) /\ shell_ok (snd ns)) (fun k => shell_open k).
Proof.
  unfold shell_open. apply (fm_bind nt_good _ (fun _ => ntfs_new)). { apply fm_const. exact ntfs_new_calm. }
  intros nt0 H0. eapply fm_bind; [apply read_upcase_table_fm; auto|]. intros nt Hn.
  apply (fm_bind file_ok _ (fun _ => ntfs_root_directory nt)). { apply fm_const. intros d Hd. apply ntfs_file_calm; auto. lia. }
  intros f Hf. apply fm_ret. split; auto. repeat constructor. exact Hf.
Qed.

(** Reading all of a value: every part that is not empty brings the position nearer to the length. *)
Lemma get_loop_settles v : av_ok v -> forall acc d, dev_ok d ->
  exists N (x : dev * (list Z * res unit)), (let '(d', (bs, r)) := x in evolves d d' /\ calmd d d' r) /\ forall k j, (N <= k)%nat -> (N <= j)%nat -> get_loop j k v acc d = x.
Proof.
  remember (Z.to_nat (av_len v - av_stream_position v)) as m eqn:Em. revert v Em. induction m as [m IH] using lt_wf_ind. intros v Em Hv acc d Hd.
  destruct (av_freads v 4096 d Hv Hd) as (N1 & (d1 & v1 & x1) & (E1 & I1 & C1 & Q1) & H1).
  assert (Hl : forall l, v = AVList l -> ss_size (lv_ss l) = lv_len l) by (intros l ->; exact (lo_same _ Hv)).
  destruct (av_read_moves N1 v 4096 d d1 v1 x1 ltac:(lia) Hl (H1 N1 ltac:(lia))) as (_ & M1 & M2).
  assert (Hfin : forall z, (let '(d', (bs, r)) := z in evolves d d' /\ calmd d d' r) -> (forall k j, (N1 <= j)%nat -> get_loop j (S k) v acc d = z) ->
    exists N (x : dev * (list Z * res unit)), (let '(d', (bs, r)) := x in evolves d d' /\ calmd d d' r) /\ forall k j, (N <= k)%nat -> (N <= j)%nat -> get_loop j k v acc d = x).
  { intros z Hz Hk. exists (S N1), z. split; auto. intros [|k] j Hk1 Hj; [lia|]. apply Hk. lia. }
  destruct x1 as [bs|e| |].
  - destruct (zlen bs =? 0) eqn:Eb.
    + apply (Hfin (d1, (acc, Ok tt))); [split; [exact E1|exact Logic.I]|]. intros k j Hj. cbn [get_loop]. rewrite H1 by lia. now rewrite Eb.
    + destruct M2 as (M2 & M3 & M4). pose proof (zlen_nonneg bs). assert (M5 : av_stream_position v1 <= av_len v) by (destruct M4 as [->|]; [discriminate|auto]).
      destruct (IH (Z.to_nat (av_len v1 - av_stream_position v1)) ltac:(lia) v1 eq_refl I1 (acc ++ bs) d1 (dev_ok_evolves _ _ E1 Hd)) as (N2 & (d2 & b2 & r2) & (E2 & C2) & H2).
      exists (S (N1 + N2)), (d2, (b2, r2)). split; [split; [exact (evolves_trans _ _ _ E1 E2)|exact (calmd_trans _ _ _ _ E1 C2)]|].
      intros [|k] j Hk Hj; [lia|]. cbn [get_loop]. rewrite H1 by lia. rewrite Eb. apply H2; lia.
  - apply (Hfin (d1, (acc, Err e))); [split; [exact E1|exact C1]|]. intros k j Hj. cbn [get_loop]. now rewrite H1 by lia.
  - apply (Hfin (d1, (acc, Panic))); [split; [exact E1|exact Logic.I]|]. intros k j Hj. cbn [get_loop]. now rewrite H1 by lia.
  - destruct C1.
Qed.

Lemma parse_number_nonneg l n : parse_number l = Some n -> 0 <= n.
Proof.
  assert (Hd : forall base t acc m, 0 <= base -> 0 <= acc -> parse_digits base acc t = Some m -> 0 <= m).
  { intros base t. induction t as [|c t IH]; intros acc m Hb Ha; cbn [parse_digits]; [now intros [= <-]|].
    destruct (to_digit base c) as [v|] eqn:Ev; [|discriminate]. destruct (_ <=? _); [|discriminate]. apply IH; auto.
    assert (0 <= v); [|nia]. unfold to_digit in Ev. destruct (_ <? base) eqn:E in Ev; [|discriminate]. injection Ev as <-.
    destruct ((48 <=? c) && (c <=? 57)) eqn:E1; [lia|]. destruct ((97 <=? c) && (c <=? 122)) eqn:E2; [lia|]. destruct ((65 <=? c) && (c <=? 90)) eqn:E3; lia. }
  assert (Hf : forall base t m, 0 <= base -> from_str_radix base t = Some m -> 0 <= m).
  { intros base [|c t] m Hb; cbn [from_str_radix]; [discriminate|]. destruct (c =? 43); [|apply Hd; lia]. destruct t; [discriminate|apply Hd; lia]. }
  unfold parse_number. destruct l as [|a [|b t]]; try (apply Hf; lia). destruct ((a =? 48) && (b =? 120)); apply Hf; lia.
Qed.

Lemma parse_file_arg_fm nt sh arg : nt_good nt -> arg = [] \/ (exists t, arg = 47 :: t) -> fm (fun x => forall f, x = Done f -> file_ok f) (fun k => parse_file_arg k nt sh arg).
Proof.
  intros Hn [->|(t & ->)]; cbn [parse_file_arg]; [apply fm_ret; discriminate|]. change (47 =? 47) with true.
  destruct (parse_number t) as [n|] eqn:En; [|apply fm_ret; discriminate].
  apply (fm_bind file_ok _ (fun _ => ntfs_file nt n) (fun _ f => mret (Done f))).
  + apply fm_const. intros d Hd. apply ntfs_file_calm; auto. exact (parse_number_nonneg _ _ En).
  + intros f Hf. apply fm_ret. now intros g [= <-].
Qed.
Lemma get_value_fm nt sh arg : nt_good nt -> direct (DoGet arg) ->
  fm (fun x => forall v, x = Done v -> av_ok v) (fun k => get_value k nt sh arg).
Proof.
  intros Hn Ha. unfold get_value. destruct (split_colon arg) as [name stream] eqn:Es.
  assert (Hname : name = [] \/ exists t, name = 47 :: t).
  { destruct Ha as [->|(t & ->)]; [injection Es as <- <-; auto|]. cbn [split_colon] in Es. change (47 =? 58) with false in Es. destruct (split_colon t) as [a b]. injection Es as <- <-. eauto. }
  apply (fm_bind (fun x => forall f, x = Done f -> file_ok f) _ (fun k => parse_file_arg k nt sh name)
     (fun k x => match x with Said m => mret (Said m) | Done f => do y <- file_data k nt f stream; match y with None => mret (Said NoStream)
       | Some i => try a <- item_to_attribute i; do v <- attr_value nt a; mret (Done v) end end)).
  - now apply parse_file_arg_fm.
  - intros [f|m] Hf; [|apply fm_ret; discriminate]. specialize (Hf f eq_refl).
    eapply fm_bind; [apply file_data_fm; auto|]. intros [i|] Hi; [|apply fm_ret; discriminate]. specialize (Hi i eq_refl).
    destruct (item_to_attribute_calm i Hi) as (C & H). apply fm_try; auto. intros a Ea.
    apply (fm_bind av_ok _ (fun _ => attr_value nt a) (fun _ v => mret (Done v))).
    + apply fm_const. intros d Hd. apply attr_value_calm; auto.
    + intros v Hv. apply fm_ret. now intros w [= <-].
Qed.

Lemma get_settles nt sh arg d : nt_good nt -> direct (DoGet arg) -> dev_ok d ->
  settles (fun k => get k nt sh arg d) (fun y => let '(d', (_, r)) := y in evolves d d' /\ r <> OutOfFuel).
Proof.
  intros Hn Ha Hd. unfold get.
  apply (settles_bind (fun k => get_value k nt sh arg d) (mpost (fun x => forall v, x = Done v -> av_ok v) d) (fun k y => match y with
    | (d1, Ok (Done v)) => let '(d2, (bs, r)) := get_loop k k v [] d1 in (d2, (bs, let? _u := r in Ok (Done tt)))
    | (d1, Ok (Said m)) => (d1, ([], Ok (Said m))) | (d1, Err x) => (d1, ([], Err x)) | (d1, Panic) => (d1, ([], Panic)) | (d1, OutOfFuel) => (d1, ([], OutOfFuel)) end)).
  { exact (get_value_fm nt sh arg Hn Ha d Hd). }
  intros (d1 & x) (E1 & C1 & Q1). destruct x as [[v|m]|e| |]; try (apply settles_const; split; [exact E1|discriminate]).
  - specialize (Q1 _ eq_refl v eq_refl). destruct (get_loop_settles v Q1 [] d1 (dev_ok_evolves _ _ E1 Hd)) as (N & (d2 & bs & r) & (E2 & C2) & H).
    exists N, (d2, (bs, let? _u := r in Ok (Done tt))). split.
    + split; [exact (evolves_trans _ _ _ E1 E2)|]. destruct r; try discriminate. destruct C2.
    + intros k Hk. now rewrite H by lia.
  - destruct C1.
Qed.

(** *** Printing *)
(** With two fuels: the inner loops get [j], the loop itself [k]. *)
Definition settles2 {A} (F : nat -> nat -> A) (Q : A -> Prop) : Prop := exists N x, Q x /\ forall j k, (N <= j)%nat -> (N <= k)%nat -> F j k = x.
Lemma settles2_one {A} (F : nat -> nat -> A) Q : settles2 F Q -> settles (fun k => F k k) Q.
Proof. intros (N & x & Hx & H). exists N, x. auto. Qed.
Lemma settles2_of {A} (F : nat -> A) Q : settles F Q -> settles2 (fun j _ => F j) Q.
Proof. intros (N & x & Hx & H). exists N, x. auto. Qed.
Lemma settles2_S {A} (F : nat -> nat -> A) Q : settles2 (fun j k => F j (S k)) Q -> settles2 F Q.
Proof. intros (N & x & Hx & H). exists (S N), x. split; auto. intros j [|k] Hj Hk; [lia|]. apply H; lia. Qed.
Lemma settles2_bind {A B} (F : nat -> nat -> A) (Q : A -> Prop) (G : nat -> nat -> A -> B) (R : B -> Prop) :
  settles2 F Q -> (forall x, Q x -> settles2 (fun j k => G j k x) R) -> settles2 (fun j k => G j k (F j k)) R.
Proof.
  intros (N & x & Hx & H) HG. destruct (HG x Hx) as (M & y & Hy & H2). exists (N + M)%nat, y. split; auto. intros j k Hj Hk. rewrite H by lia. apply H2; lia.
Qed.
Definition ppost {A} (Q : A -> Prop) (d : dev) (y : dev * (list line * res A)) : Prop := let '(d', (_, x)) := y in evolves d d' /\ calmd d d' x /\ forall a, x = Ok a -> Q a.
Ltac pps := unfold ppost; splits.
Definition fp {A} (Q : A -> Prop) (m : nat -> nat -> P A) : Prop := forall d, dev_ok d -> settles2 (fun j k => m j k d) (ppost Q d).
Lemma fp_of {A} (Q : A -> Prop) (m : nat -> M A) : fm Q m -> fp Q (fun j _ => pm (m j)).
Proof.
  intros H d Hd. apply settles2_of. unfold pm. apply (settles_map (fun j => m j d) (fun y => let '(d1, r) := y in (d1, ([], r))) (mpost Q d)); [exact (H d Hd)|].
  intros (d1 & x) Hx. exact Hx.
Qed.
Lemma fp_lift {A} (Q : A -> Prop) (x : res A) : calm x -> (forall a, x = Ok a -> Q a) -> fp Q (fun _ _ => plift x).
Proof. intros C H d Hd. exists 0%nat, (d, ([], x)). split; [|reflexivity]. pps; auto using evolves_refl. now apply calm_calmd. Qed.
Lemma fp_ret {A} (Q : A -> Prop) (a : A) : Q a -> fp Q (fun _ _ => pret a).
Proof. intros H. apply (fp_lift Q (Ok a)); [exact Logic.I|]. now intros b [= <-]. Qed.
Lemma fp_print (Q : unit -> Prop) l : Q tt -> fp Q (fun _ _ => print l).
Proof. intros H d Hd. exists 0%nat, (d, ([l], Ok tt)). split; [|reflexivity]. pps; auto using evolves_refl; try exact Logic.I. now intros []. Qed.
Lemma fp_bind {A B} (Q : A -> Prop) (R : B -> Prop) (m : nat -> nat -> P A) (f : nat -> nat -> A -> P B) :
  fp Q m -> (forall a, Q a -> fp R (fun j k => f j k a)) -> fp R (fun j k => pbind (m j k) (f j k)).
Proof.
  intros Hm Hf d Hd. unfold pbind.
  apply (settles2_bind (fun j k => m j k d) (ppost Q d) (fun j k y => match y with
    | (d1, (l1, Ok a)) => let '(d2, (l2, r)) := f j k a d1 in (d2, (l1 ++ l2, r))
    | (d1, (l1, Err x)) => (d1, (l1, Err x)) | (d1, (l1, Panic)) => (d1, (l1, Panic)) | (d1, (l1, OutOfFuel)) => (d1, (l1, OutOfFuel)) end)); [exact (Hm d Hd)|].
  intros (d1 & l1 & x) (E1 & C1 & Q1). destruct x as [a|e| |].
  - apply (settles2_bind (fun j k => f j k a d1) (ppost R d1) (fun j k y => let '(d2, (l2, r)) := y in (d2, (l1 ++ l2, r)))); [exact (Hf a (Q1 a eq_refl) d1 (dev_ok_evolves _ _ E1 Hd))|].
    intros (d2 & l2 & y) (E2 & C2 & Q2). exists 0%nat, (d2, (l1 ++ l2, y)). split; [|reflexivity]. pps; auto; [exact (evolves_trans _ _ _ E1 E2)|exact (calmd_trans _ _ _ _ E1 C2)].
  - exists 0%nat, (d1, (l1, Err e)). split; [|reflexivity]. pps; auto; discriminate.
  - exists 0%nat, (d1, (l1, Panic)). split; [|reflexivity]. pps; auto; discriminate.
  - destruct C1.
Qed.
Lemma fp_try {A B} (R : B -> Prop) (x : res A) (f : nat -> nat -> A -> P B) : calm x -> (forall a, x = Ok a -> fp R (fun j k => f j k a)) ->
  fp R (fun j k => pbind (plift x) (f j k)).
Proof. intros C H. apply (fp_bind (fun a => x = Ok a) R (fun _ _ => plift x) f); auto. apply fp_lift; auto. Qed.
Lemma fp_S {A} (Q : A -> Prop) (m : nat -> nat -> P A) : fp Q (fun j k => m j (S k)) -> fp Q m.
Proof. intros H d Hd. apply settles2_S. exact (H d Hd). Qed.
(** A loop as an inner one. *)
Lemma fp_inner {A} (Q : A -> Prop) (m : nat -> nat -> P A) : fp Q m -> fp Q (fun j _ => m j j).
Proof. intros H d Hd. apply (settles2_of (fun j => m j j d)), (settles2_one (fun j k => m j k d)). exact (H d Hd). Qed.

Notation any := (fun _ => True).
Lemma run_lines_fp cs data p inner : 1 <= cs -> bytes_ok data -> forall s i, druns_ok s -> fp any (fun _ k => run_lines k cs data p inner i s).
Proof.
  intros Hcs Hd s. remember (length (zdrop (dr_off s) data)) as m eqn:Em. revert s Em. induction m as [m IH] using lt_wf_ind. intros s Em i Hs.
  apply fp_S. cbn [run_lines]. destruct (druns_next cs data p s) as [s' x] eqn:E.
  destruct (druns_step cs data p s (mkSS None 0 0) s' x Hcs Hd Hs ltac:(unfold ss_sane; cbn; splits; try discriminate; unfold U64_MAX; lia) E) as (Hs' & K).
  destruct x as [[r|e| |]|]; [|apply fp_try; [exact K|discriminate]|apply fp_try; [exact Logic.I|discriminate]|destruct K|now apply fp_ret].
  apply fp_try; [exact Logic.I|]. intros r' [= <-]. apply (fp_bind any any (fun _ _ => print _)); [now apply fp_print|]. intros _ _.
  apply (IH (length (zdrop (dr_off s') data))); auto. lia.
Qed.

Lemma attr_print_fp nt runs inner n a : nt_good nt -> attr_ok a -> fp any (fun j _ => attr_print j nt runs inner n a).
Proof.
  intros Hn Ha. unfold attr_print. apply fp_try; [apply calm_attr_instance|]. intros inst _. apply fp_try; [apply calm_attr_ty|]. intros ty _.
  apply fp_try; [apply calm_attr_is_resident|]. intros res _. apply fp_try; [apply calm_value_length|]. intros len _. apply fp_try; [apply calm_attr_name|]. intros name _.
  apply (fp_bind any any (fun _ _ => print _)); [now apply fp_print|]. intros _ _. destruct runs; [|now apply fp_ret].
  apply (fp_bind av_ok any (fun _ _ => pm (attr_value nt a))).
  { apply (fp_of av_ok (fun _ => attr_value nt a)). apply fm_const. intros d Hd. now apply attr_value_calm. }
  intros v Hv. destruct v as [[r|x]|l]; try now apply fp_ret.
  apply (fp_inner any (fun _ k => run_lines k (nv_cs x) (nv_data x) (nv_position x) inner 0 druns_start)).
  apply run_lines_fp; [exact (ns_cs _ _ Hv)|exact (ns_data _ _ Hv)|apply druns_start_ok].
Qed.

Lemma list_lines_fp nt runs self : nt_good nt -> forall l, alist_ok l -> fp any (fun j k => list_lines j k nt runs self l).
Proof.
  intros Hn l. remember (lrest l) as m eqn:Em. revert l Em. induction m as [m IH] using lt_wf_ind. intros l Em Hl d Hd.
  apply settles2_S. cbn [list_lines]. destruct (alist_next l d) as [d1 [l1 x]] eqn:E. destruct (alist_next_calm _ _ _ _ _ Hl Hd E) as (E1 & L1 & K).
  destruct x as [x|]; [|exists 0%nat, (d1, ([], Ok tt)); split; [|reflexivity]; pps; auto; exact Logic.I].
  destruct K as (C & K). destruct x as [e|e| |].
  - destruct (K e eq_refl) as ((He1 & He2) & Hr).
    assert (H : fp any (fun j k => pdo e <- plift (Ok e); if le_number e =? self then list_lines j k nt runs self l1 else
      pdo f <- pm (le_to_file nt e); pdo a <- plift (le_to_attribute e f); pdo _u <- attr_print j nt runs true (le_number e) a; list_lines j k nt runs self l1)).
    { apply fp_try; [exact Logic.I|]. intros e' [= <-]. assert (Hrec : fp any (fun j k => list_lines j k nt runs self l1)) by (apply (IH (lrest l1)); auto; lia).
      destruct (le_number e =? self); [exact Hrec|].
      apply (fp_bind file_ok any (fun _ _ => pm (le_to_file nt e))).
      { apply (fp_of file_ok (fun _ => le_to_file nt e)). apply fm_const. intros d0 Hd0. now apply ntfs_file_calm. }
      intros f Hf. destruct (le_to_attribute_calm e f Hf) as (C2 & K2). apply fp_try; [exact C2|]. intros a Ea. destruct (K2 a Ea) as (A1 & A2 & A3).
      apply (fp_bind any any (fun j _ => attr_print j nt runs true (le_number e) a)); [|auto].
      apply attr_print_fp; auto. split; [now rewrite A1|rewrite A3; intros ? [=]]. }
    destruct (H d1 (dev_ok_evolves _ _ E1 Hd)) as (N & (d2 & ls & y) & (E2 & C2 & _) & H2). exists N, (d2, (ls, y)). split; [|exact H2].
    pps; auto; [exact (evolves_trans _ _ _ E1 E2)|exact (calmd_trans _ _ _ _ E1 C2)].
  - exists 0%nat, (d1, ([], Err e)). split; [|reflexivity]. pps; auto.
  - exists 0%nat, (d1, ([], Panic)). split; [|reflexivity]. pps; auto.
  - destruct C.
Qed.

Lemma attr_loop_fp nt runs f : nt_good nt -> file_ok f -> forall s, 0 <= s -> fp any (fun j k => attr_loop j k nt runs f s).
Proof.
  intros Hn Hf s. remember (Z.to_nat (zlen (f_data f) - s)) as m eqn:Em. revert s Em. induction m as [m IH] using lt_wf_ind. intros s Em Hs.
  apply fp_S. cbn [attr_loop]. destruct (raw_next f s) as [s' [x|]] eqn:E; [|now apply fp_ret]. destruct (raw_next_calm _ _ _ _ Hf Hs E) as (C & K).
  apply fp_try; [exact C|]. intros a Ea. destruct (K a Ea) as (A1 & A2 & A3 & A4 & A5).
  assert (Ha : attr_ok a) by (split; [now rewrite A1|rewrite A3; intros ? [=]]).
  apply fp_try; [apply calm_attr_ty|]. intros ty _. apply (fp_bind any any (fun j _ => attr_print j nt runs false (f_number f) a)); [now apply attr_print_fp|]. intros _ _.
  apply (fp_bind any any (fun j _ => if ty =? TY_AttributeList then pdo v <- plift (attr_value_simple (cluster_size nt) a); list_lines j j nt runs (f_number f) (alist_of_sval v) else pret tt)).
  - destruct (ty =? TY_AttributeList); [|now apply fp_ret]. destruct Hn as ((Hc & Hm) & Hr). destruct (attr_value_simple_calm (cluster_size nt) a Hc (proj1 Ha)) as (C1 & K1).
    apply fp_try; [exact C1|]. intros v Hv. apply (fp_inner any (fun j k => list_lines j k nt runs (f_number f) (alist_of_sval v))). apply list_lines_fp; [split; [split; auto|auto]|].
    apply alist_of_sval_ok. auto.
  - intros _ _. apply (IH (Z.to_nat (zlen (f_data f) - s'))); auto; lia.
Qed.
Lemma attr_fp nt sh runs arg : nt_good nt -> direct (DoAttr runs arg) -> fp any (fun j _ => attr j nt sh runs arg).
Proof.
  intros Hn Ha. unfold attr. apply (fp_bind (fun x => forall f, x = Done f -> file_ok f) any (fun j _ => pm (parse_file_arg j nt sh arg))).
  { apply (fp_of (fun x => forall f, x = Done f -> file_ok f) (fun j => parse_file_arg j nt sh arg)). now apply parse_file_arg_fm. }
  intros [f|m] Hf; [|now apply fp_ret]. specialize (Hf f eq_refl). apply (fp_bind any any (fun j _ => attr_file j nt runs f)); [|intros _ _; now apply fp_ret].
  unfold attr_file. apply fp_try; [apply calm_rd|]. intros s Hs. apply (fp_inner any (fun j k => attr_loop j k nt runs f s)). apply attr_loop_fp; auto. now apply (raw_start_ok f).
Qed.

Lemma calm_datetime t : calm (datetime_from_time t).
Proof. unfold datetime_from_time. repeat (match goal with |- context [match ?x with _ => _ end] => destruct x end; cbn [rbind]); try exact Logic.I. Qed.
Lemma calm_namespace fn : calm (fn_namespace fn).
Proof. unfold fn_namespace. destruct (_ <=? _); exact Logic.I. Qed.
Lemma attribute_info_fp nt a : nt_good nt -> attr_ok a -> fp any (fun j _ => attribute_info j nt a).
Proof.
  intros Hn Ha. unfold attribute_info. pose proof (calm_attr_ty a) as C. destruct (attr_ty a) as [ty|e| |]; [|now apply fp_ret|now apply fp_lift|destruct C].
  destruct (ty =? _); [|destruct (ty =? _); [|destruct (ty =? _); [|now apply fp_ret]]].
  - unfold standard_line. apply fp_try; [apply (resident_structured_calm si_new); [apply si_new_ok|exact (proj1 Ha)]|]. intros v _.
    do 4 (apply fp_try; [apply calm_datetime|]; intros ? _). now apply fp_print.
  - unfold name_line. apply (fp_bind any any (fun j _ => pm (attr_structured j nt fn_new TY_FileName a))).
    { apply (fp_of any (fun j => attr_structured j nt fn_new TY_FileName a)). intros d Hd. eapply settles_impl; [exact (attr_structured_fm nt _ TY_FileName a Hn (fn_new_ok _) Ha d Hd)|].
      intros (d1 & x) (H1 & H2 & _). mps; auto. }
    intros fn _. apply fp_try; [apply calm_namespace|]. intros ns _. now apply fp_print.
  - unfold stream_line. apply fp_try; [apply calm_attr_name|]. intros name _. apply fp_try; [apply calm_value_length|]. intros len _. now apply fp_print.
Qed.
Lemma info_loop_fp nt : nt_good nt -> forall st, attrs_ok st -> fp any (fun j k => info_loop j k nt st).
Proof.
  intros Hn st. induction (sooner_wf st) as [st _ IH]. intros Hst d Hd. apply settles2_S. cbn [info_loop].
  apply (settles2_bind (fun j _ => attrs_next j nt st d) (next_post st d) (fun j k y => match y with
    | (d1, (_, None)) => (d1, ([], Ok tt))
    | (d1, (st1, Some x)) => (pdo i <- plift x; pdo a <- plift (item_to_attribute i); pdo _u <- attribute_info j nt a; info_loop j k nt st1) d1 end)).
  { apply settles2_of. exact (attrs_next_settles nt st Hn Hst d Hd). }
  intros (d1 & st1 & x) (E1 & O1 & B1). destruct x as [x|]; [|exists 0%nat, (d1, ([], Ok tt)); split; [|reflexivity]; pps; auto; exact Logic.I].
  destruct B1 as (C1 & B1). destruct x as [i|e| |].
  - destruct (B1 i eq_refl) as (Hi & Hs). destruct (item_to_attribute_calm i Hi) as (C2 & K2).
    assert (H : fp any (fun j k => pdo i <- plift (Ok i); pdo a <- plift (item_to_attribute i); pdo _u <- attribute_info j nt a; info_loop j k nt st1)).
    { apply fp_try; [exact Logic.I|]. intros i' [= <-]. apply fp_try; [exact C2|]. intros a Ea. apply (fp_bind any any (fun j _ => attribute_info j nt a)); [now apply attribute_info_fp; auto|].
      intros _ _. now apply IH. }
    destruct (H d1 (dev_ok_evolves _ _ E1 Hd)) as (N & (d2 & ls & y) & (E2 & C3 & _) & H2). exists N, (d2, (ls, y)). split; [|exact H2].
    pps; auto; [exact (evolves_trans _ _ _ E1 E2)|exact (calmd_trans _ _ _ _ E1 C3)].
  - exists 0%nat, (d1, ([], Err e)). split; [|reflexivity]. pps; auto.
  - exists 0%nat, (d1, ([], Panic)). split; [|reflexivity]. pps; auto.
  - destruct C1.
Qed.
Lemma fileinfo_fp nt sh arg : nt_good nt -> direct (DoFileinfo arg) -> fp any (fun j _ => fileinfo j nt sh arg).
Proof.
  intros Hn Ha. unfold fileinfo. apply (fp_bind (fun x => forall f, x = Done f -> file_ok f) any (fun j _ => pm (parse_file_arg j nt sh arg))).
  { apply (fp_of (fun x => forall f, x = Done f -> file_ok f) (fun j => parse_file_arg j nt sh arg)). now apply parse_file_arg_fm. }
  intros [f|m] Hf; [|now apply fp_ret]. specialize (Hf f eq_refl). apply (fp_bind any any (fun j _ => fileinfo_file j nt f)); [|intros _ _; now apply fp_ret].
  unfold fileinfo_file. apply (fp_bind any any (fun _ _ => record_line f)).
  - unfold record_line, f_allocated_size, f_data_size, f_hard_link_count, f_is_directory, f_sequence_number. apply fp_try; [apply calm_rd|]. intros a1 _. apply fp_try; [apply calm_rd|]. intros a2 _.
    apply fp_try; [apply calm_rd|]. intros a3 _. apply fp_try; [apply calm_bind; [unfold f_flags; apply calm_bind; [apply calm_rd|intros; exact Logic.I]|intros; exact Logic.I]|]. intros a4 _. apply fp_try; [apply calm_rd|]. intros a5 _. now apply fp_print.
  - intros _ _. apply fp_try; [apply attrs_start_calm|]. intros st Hs. apply (fp_inner any (fun j k => info_loop j k nt st)). apply info_loop_fp; auto. exact (attrs_start_ok _ _ Hf Hs).
Qed.
Lemma find_structured_calm {A} (new : (Z -> RM resv (list Z)) -> position -> Z -> RM resv A) ty f n : new_ok res_ok new -> file_ok f -> calm (find_structured new ty f n).
Proof.
  intros Hnew Hf. unfold find_structured, find_resident_structured. destruct (find_resident_calm f ty n None Hf) as (C & H).
  destruct (find_resident_attribute f ty n None) as [a|e| |]; cbn [rbind]; try exact C. destruct (H a eq_refl) as (HA & _).
  apply (resident_structured_calm new ty a Hnew). now rewrite HA.
Qed.
Lemma fsinfo_fp nt : nt_good nt -> fp any (fun _ _ => fsinfo nt).
Proof.
  intros Hn. unfold fsinfo. apply (fp_bind any any (fun _ _ => print _)); [now apply fp_print|]. intros _ _.
  apply (fp_bind any any (fun _ _ => pm (volume_info nt))).
  { apply (fp_of any (fun _ => volume_info nt)). unfold volume_info. apply (fm_bind file_ok any (fun _ => ntfs_file nt 3)).
    - apply fm_const. intros d Hd. apply ntfs_file_calm; auto; lia.
    - intros f Hf. apply fm_lift; auto. apply find_structured_calm; auto using vi_new_ok. }
  intros v _. apply (fp_bind any any (fun _ _ => print _)); [now apply fp_print|]. intros _ _. apply (fp_bind any any (fun _ _ => print _)); [now apply fp_print|]. intros _ _.
  intros d Hd. unfold label_line, volume_name. pose proof (ntfs_file_calm nt 3 d Hn ltac:(lia) Hd) as H. destruct (ntfs_file nt 3 d) as [d1 [f|e| |]]; destruct H as (E & C & Q).
  - pose proof (find_structured_calm vn_new TY_VolumeName f None (vn_new_ok _) (Q f eq_refl)) as Cn.
    destruct (find_structured vn_new TY_VolumeName f None) as [n|e| |]; [| | |destruct Cn].
    + eexists 0%nat, _. split; [|reflexivity]. unfold ppost, print; splits; auto; exact Logic.I.
    + destruct e; (eexists 0%nat, _; (split; [|reflexivity]); unfold ppost, print; splits; auto; exact Logic.I).
    + eexists 0%nat, _. split; [|reflexivity]. unfold ppost, print; splits; auto; exact Logic.I.
  - eexists 0%nat, _. split; [|reflexivity]. unfold ppost, print; splits; auto; exact Logic.I.
  - eexists 0%nat, _. split; [|reflexivity]. unfold ppost, print; splits; auto; exact Logic.I.
  - destruct C.
Qed.

Lemma run_command_settles nt sh c d : nt_good nt -> shell_ok sh -> direct c -> dev_ok d ->
  settles (fun k => run_command k nt sh c d) (fun y => let '(d', (sh', r)) := y in evolves d d' /\ shell_ok sh' /\ re_outcome r <> OutOfFuel).
Proof.
  intros Hn Hs Hc Hd. destruct c as [arg| |arg|runs arg|arg| |arg| |word]; cbn [run_command].
  - destruct Hc as [->| ->].
    + eapply settles_ext; [apply (settles_const (d, (sh, mkReply [] [] (Ok (Done tt)))))|reflexivity]. splits; auto using evolves_refl; discriminate.
    + eapply settles_ext; [apply (settles_const (d, (cd_up sh, mkReply [] [] (Ok (Done tt)))))|reflexivity]. splits; auto using evolves_refl; [|discriminate].
      unfold cd_up, shell_ok in *. destruct (sh_text sh); auto. cbn. destruct (sh_dirs sh); auto. now inversion Hs.
  - destruct Hc.
  - apply (settles_map (fun k => get k nt sh arg d) (fun y => let '(d1, (bs, r)) := y in (d1, (sh, mkReply [] bs r))) _ _ (get_settles nt sh arg d Hn Hc Hd)).
    intros (d1 & bs & r) (E & H). splits; auto.
  - apply (settles_map (fun k => attr k nt sh runs arg d) (fun y => let '(d1, (lines, r)) := y in (d1, (sh, mkReply lines [] r))) (ppost any d)).
    + exact (settles2_one _ _ (attr_fp nt sh runs arg Hn Hc d Hd)).
    + intros (d1 & ls & r) (E & C & _). splits; auto. cbn [re_outcome]. intros ->. destruct C.
  - apply (settles_map (fun k => fileinfo k nt sh arg d) (fun y => let '(d1, (lines, r)) := y in (d1, (sh, mkReply lines [] r))) (ppost any d)).
    + exact (settles2_one _ _ (fileinfo_fp nt sh arg Hn Hc d Hd)).
    + intros (d1 & ls & r) (E & C & _). splits; auto. cbn [re_outcome]. intros ->. destruct C.
  - apply (settles_map (fun _ => fsinfo nt d) (fun y => let '(d1, (lines, r)) := y in (d1, (sh, mkReply lines [] (let? _u := r in Ok (Done tt))))) (ppost any d)).
    + exact (settles2_one _ _ (fsinfo_fp nt Hn d Hd)).
    + intros (d1 & ls & r) (E & C & _). splits; auto. cbn [re_outcome]. destruct r; try discriminate. destruct C.
  - apply settles_const. splits; auto using evolves_refl. discriminate.
  - apply settles_const. splits; auto using evolves_refl. discriminate.
  - apply settles_const. splits; auto using evolves_refl. discriminate.
Qed.
Lemma run_commands_settles nt : nt_good nt -> forall cs sh d, shell_ok sh -> Forall direct cs -> dev_ok d ->
  settles (fun k => run_commands k nt sh cs d) (Forall (fun p => re_outcome (fst p) <> OutOfFuel)).
Proof.
  intros Hn. induction cs as [|c cs IH]; intros sh d Hs Hc Hd; cbn [run_commands]; [apply settles_const; constructor|]. inversion_clear Hc.
  apply (settles_bind (fun k => run_command k nt sh c d) (fun y => let '(d', (sh', r)) := y in evolves d d' /\ shell_ok sh' /\ re_outcome r <> OutOfFuel)
    (fun k y => let '(d1, (sh1, r)) := y in (r, sh_text sh1) :: match re_outcome r with Panic | OutOfFuel => [] | _ => run_commands k nt sh1 cs d1 end)).
  { apply run_command_settles; auto. }
  intros (d1 & sh1 & r) (E & Hs1 & Hr).
  assert (Hgo : settles (fun k => (r, sh_text sh1) :: run_commands k nt sh1 cs d1) (Forall (fun p => re_outcome (fst p) <> OutOfFuel))).
  { apply (settles_map (fun k => run_commands k nt sh1 cs d1) (cons (r, sh_text sh1)) _ _ (IH sh1 d1 Hs1 H0 (dev_ok_evolves _ _ E Hd))). intros x Hx. constructor; auto. }
  destruct (re_outcome r) eqn:Er; auto; try congruence. apply settles_const. repeat constructor. cbn [fst]. congruence.
Qed.
Lemma session_settles cs d : Forall direct cs -> dev_ok d ->
  settles (fun k => session k cs d) (fun x => x <> OutOfFuel /\ forall l, x = Ok l -> Forall (fun p => re_outcome (fst p) <> OutOfFuel) l).
Proof.
  intros Hc Hd. unfold session.
  apply (settles_bind (fun k => shell_open k d) (mpost (fun ns => nt_good (fst ns) /\ shell_ok (snd ns)) d)
    (fun k y => match y with (d1, Ok (nt, sh)) => Ok (run_commands k nt sh cs d1) | (_, Err x) => Err x | (_, Panic) => Panic | (_, OutOfFuel) => OutOfFuel end)).
  { exact (shell_open_fm d Hd). }
  intros (d1 & x) (E & C & Q). destruct x as [[nt sh]|e| |]; try (apply settles_const; split; discriminate).
  - destruct (Q _ eq_refl) as (Hn & Hs). cbn in Hn, Hs.
    apply (settles_map (fun k => run_commands k nt sh cs d1) (fun l => Ok l) _ _ (run_commands_settles nt Hn cs sh d1 Hs Hc (dev_ok_evolves _ _ E Hd))).
    intros l Hl. split; [discriminate|]. now intros l' [= <-].
  - destruct C.
Qed.

(** ** The claims *)
Lemma opened_good nt : opened nt -> nt_good nt.
Proof.
  intros (d & d' & nt0 & t & Hd & E & ->). pose proof (ntfs_new_calm d Hd) as H. rewrite E in H. destruct H as (_ & _ & H). exact (H nt0 eq_refl).
Qed.
Lemma file_read_ok nt f : opened nt -> file_read_from nt f -> file_ok f.
Proof.
  intros Hn (d & d' & n & Hd & Hp & E). pose proof (ntfs_file_calm nt n d (opened_good nt Hn) Hp Hd) as H. rewrite E in H. destruct H as (_ & _ & H). exact (H f eq_refl).
Qed.
Lemma mpost_ends {A} (Q : A -> Prop) d y : mpost Q d y -> snd y <> OutOfFuel.
Proof. destruct y as [d1 x]. intros (_ & C & _) E. cbn in E. subst x. destruct C. Qed.
Lemma fm_ends {A} (Q : A -> Prop) (m : nat -> M A) d : fm Q m -> dev_ok d -> settles (fun k => m k d) (fun y => snd y <> OutOfFuel).
Proof. intros H Hd. eapply settles_impl; [exact (H d Hd)|]. intros y. apply mpost_ends. Qed.

Lemma av_run_settles ops : Forall op_ok ops -> forall v d, av_ok v -> dev_ok d -> settles (fun k => reader_run (av_read k) (av_seek k) v d ops) (Forall op_ended).
Proof.
  induction 1 as [|o ops Ho _ IH]; intros v d Hv Hd; cbn [reader_run]; [apply settles_const; constructor|].
  destruct o as [n|sf]; cbn [reader_step].
  - apply (settles_bind (fun k => av_read k v n d) (post av_ok (fun bs => bytes_ok bs /\ zlen bs <= Z.max 0 n) d)
      (fun k y => let '(d1, s1, r) := (let '(d2, (s2, x)) := y in (d2, s2, RBytes x)) in r :: reader_run (av_read k) (av_seek k) s1 d1 ops)).
    { exact (av_freads v n d Hv Hd). }
    intros (d1 & v1 & x) (E1 & I1 & C1 & _).
    apply (settles_map (fun k => reader_run (av_read k) (av_seek k) v1 d1 ops) (cons (RBytes x)) _ _ (IH v1 d1 I1 (dev_ok_evolves _ _ E1 Hd))).
    intros l Hl. constructor; auto. split; [|discriminate]. intros [= ->]. destruct C1.
  - apply (settles_bind (fun k => av_seek k v sf d) (post av_ok (fun _ => True) d)
      (fun k y => let '(d1, s1, r) := (let '(d2, (s2, x)) := y in (d2, s2, RPos x)) in r :: reader_run (av_read k) (av_seek k) s1 d1 ops)).
    { exact (av_seek_settles v sf d Hv Hd Ho). }
    intros (d1 & v1 & x) (E1 & I1 & C1 & _).
    apply (settles_map (fun k => reader_run (av_read k) (av_seek k) v1 d1 ops) (cons (RPos x)) _ _ (IH v1 d1 I1 (dev_ok_evolves _ _ E1 Hd))).
    intros l Hl. constructor; auto. split; [discriminate|]. intros [= ->]. destruct C1.
Qed.
Lemma attr_value_ends nt a : nt_good nt -> attr_ok a -> value_ends nt a.
Proof.
  intros Hn Ha d Hd. pose proof (attr_value_calm nt a d Hn Ha Hd) as H. split; [exact (mpost_ends _ _ _ H)|]. split.
  { intros d1 v E ops d2 Hd2 Ho. rewrite E in H. destruct H as (_ & _ & H). apply av_run_settles; auto. }
  splits; [exact (fm_ends _ _ d (attr_structured_fm nt _ TY_FileName a Hn (fn_new_ok _) Ha) Hd)|exact (fm_ends _ _ d (attr_structured_fm nt _ TY_StandardInformation a Hn (si_new_ok _) Ha) Hd)
    |exact (fm_ends _ _ d (attr_structured_fm nt _ TY_VolumeInformation a Hn (vi_new_ok _) Ha) Hd)|exact (fm_ends _ _ d (attr_structured_fm nt _ TY_VolumeName a Hn (vn_new_ok _) Ha) Hd)
    |exact (fm_ends _ _ d (attr_structured_fm nt _ TY_ObjectId a Hn (oi_new_ok _) Ha) Hd)].
Qed.
Lemma item_ok_ends nt i : nt_good nt -> item_ok i -> item_ends nt i.
Proof.
  intros Hn Hi. destruct (item_to_attribute_calm i Hi) as (C & H). split; [intros E; rewrite E in C; destruct C|]. intros a Ea. apply attr_value_ends; auto.
Qed.

Lemma opening_ends d : bytes_ok (d_img d) -> settles (fun k => (do nt <- ntfs_new; read_upcase_table k nt) d) (fun y => snd y <> OutOfFuel).
Proof.
  intros Hd. apply (fm_ends nt_good (fun k => do nt <- ntfs_new; read_upcase_table k nt) d); auto.
  apply (fm_bind nt_good nt_good (fun _ => ntfs_new)); [apply fm_const; exact ntfs_new_calm|]. intros nt Hn. now apply read_upcase_table_fm.
Qed.
Lemma file_by_number_ends nt n d : opened nt -> 0 <= n -> bytes_ok (d_img d) -> snd (ntfs_file nt n d) <> OutOfFuel.
Proof. intros Hn Hp Hd. exact (mpost_ends _ _ _ (ntfs_file_calm nt n d (opened_good _ Hn) Hp Hd)). Qed.

Definition iter_post nt (l : list (item attr_item)) : Prop := Forall (fun x => x <> Some OutOfFuel /\ forall i, x = Some (Ok i) -> item_ends nt i) l.
Lemma attrs_iter_ends nt : nt_good nt -> forall n st d, attrs_ok st -> dev_ok d -> settles (fun k => iterate (with_dev (attrs_next k nt)) n (st, d)) (iter_post nt).
Proof.
  intros Hn. induction n as [|n IH]; intros st d Hst Hd; cbn [iterate]; [apply settles_const; constructor|].
  apply (settles_bind (fun k => attrs_next k nt st d) (next_post st d)
    (fun k y => let '(s1, x) := (let '(d', (s', x)) := y in ((s', d'), x)) in x :: iterate (with_dev (attrs_next k nt)) n s1)).
  { exact (attrs_next_settles nt st Hn Hst d Hd). }
  intros (d1 & st1 & x) (E1 & O1 & B1).
  apply (settles_map (fun k => iterate (with_dev (attrs_next k nt)) n (st1, d1)) (cons x) _ _ (IH st1 d1 O1 (dev_ok_evolves _ _ E1 Hd))).
  intros l Hl. constructor; auto. split.
  - intros ->. destruct B1 as ([] & _).
  - intros i ->. destruct B1 as (_ & B1). destruct (B1 i eq_refl). now apply item_ok_ends.
Qed.
Lemma attrs_iter_stops nt : nt_good nt -> forall st d, attrs_ok st -> dev_ok d ->
  exists n, settles (fun k => iterate (with_dev (attrs_next k nt)) n (st, d)) (Exists (fun x => forall i, x <> Some (Ok i))).
Proof.
  intros Hn st. induction (sooner_wf st) as [st _ IH]. intros d Hst Hd.
  destruct (attrs_next_settles nt st Hn Hst d Hd) as (N1 & (d1 & st1 & x1) & (E1 & O1 & B1) & H1).
  assert (Hone : (forall i, x1 <> Some (Ok i)) -> exists n, settles (fun k => iterate (with_dev (attrs_next k nt)) n (st, d)) (Exists (fun x => forall i, x <> Some (Ok i)))).
  { intros Hx. exists 1%nat, N1, [x1]. split; [constructor; exact Hx|]. intros k Hk. cbn [iterate with_dev]. unfold with_dev. cbn [fst snd]. now rewrite H1 by lia. }
  destruct x1 as [[i|e| |]|]; try (apply Hone; discriminate).
  destruct B1 as (_ & B1). destruct (B1 i eq_refl) as (_ & Hs).
  destruct (IH st1 Hs d1 O1 (dev_ok_evolves _ _ E1 Hd)) as (n & N2 & l & Hl & H2).
  exists (S n), (N1 + N2)%nat, (Some (Ok i) :: l). split; [now constructor 2|]. intros k Hk. cbn [iterate]. unfold with_dev at 1. cbn [fst snd]. rewrite H1 by lia. f_equal. apply H2. lia.
Qed.
Lemma attributes_end nt f st d : opened nt -> file_read_from nt f -> attrs_start f = Ok st -> bytes_ok (d_img d) ->
  (forall n, settles (fun k => iterate (with_dev (attrs_next k nt)) n (st, d))
     (Forall (fun x => x <> Some OutOfFuel /\ forall i, x = Some (Ok i) -> item_ends nt i))) /\
  exists n, settles (fun k => iterate (with_dev (attrs_next k nt)) n (st, d)) (Exists (fun x => forall i, x <> Some (Ok i))).
Proof.
  intros Hn Hf Hs Hd. pose proof (opened_good _ Hn) as Hg. pose proof (attrs_start_ok _ _ (file_read_ok _ _ Hn Hf) Hs) as Hst.
  split; [intros n; now apply attrs_iter_ends|now apply attrs_iter_stops].
Qed.
Lemma searches_end nt f d : opened nt -> file_read_from nt f -> bytes_ok (d_img d) ->
  (forall ty name, settles (fun k => find_attribute k nt f ty name d) (fun y => snd y <> OutOfFuel /\ forall i, snd y = Ok i -> item_ends nt i)) /\
  (forall stream, settles (fun k => file_data k nt f stream d) (fun y => snd y <> OutOfFuel /\ forall i, snd y = Ok (Some i) -> item_ends nt i)) /\
  (forall ns parent, settles (fun k => file_name_of k nt f ns parent d) (fun y => snd y <> OutOfFuel)).
Proof.
  intros Hn Hf Hd. pose proof (opened_good _ Hn) as Hg. pose proof (file_read_ok _ _ Hn Hf) as Hok. splits.
  - intros ty name. eapply settles_impl; [exact (find_attribute_fm nt f ty name Hg Hok d Hd)|]. intros y Hy. split; [exact (mpost_ends _ _ _ Hy)|].
    intros i E. destruct y as [d1 x]. destruct Hy as (_ & _ & Q). cbn in E. apply item_ok_ends; auto.
  - intros stream. eapply settles_impl; [exact (file_data_fm nt f stream Hg Hok d Hd)|]. intros y Hy. split; [exact (mpost_ends _ _ _ Hy)|].
    intros i E. destruct y as [d1 x]. destruct Hy as (_ & _ & Q). cbn in E. apply item_ok_ends; auto. exact (Q _ E i eq_refl).
  - intros ns parent. exact (fm_ends _ _ d (file_name_of_fm nt f ns parent Hg Hok) Hd).
Qed.
