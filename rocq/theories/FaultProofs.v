(** * Proofs for C60 and C61: two runs side by side, on a device with faults and on the same device without them, or with different fuel. *)
From Coq Require Import Lia.
From Verif Require Import Base Dev Types Record DataRuns Stream NonResident Resident BootSector Attribute File Structured AttrList Upcase Index Time Volume Shell
  SpecFaults BaseProofs.

(** The stream state is a component of the value. *)
Definition lens {S} (o : stream_ops S) : Prop :=
  (forall s ss, so_ss o (so_set o s ss) = ss) /\ (forall s ss ss', so_set o (so_set o s ss) ss' = so_set o s ss') /\ (forall s, so_set o s (so_ss o s) = s).

Section Sim.
  (** Related devices, and what holds of the first one also after an error. *)
  Variable R : dev -> dev -> Prop.
  Variable Q : dev -> Prop.
  (** How the first run may deviate: by errors of these kinds, or because there is not enough fuel. *)
  Variable K : iokind -> Prop.
  Variable F : Prop.
  Hypothesis R_Q : forall d e, F -> R d e -> Q d.
  Hypothesis K_int : ~ K Interrupted.

  Definition outcome {B} (bad : B -> B -> Prop) (x y : dev * B) : Prop :=
    let '(d1, b) := x in let '(d2, b') := y in R d1 d2 /\ b' = b \/ Q d1 /\ bad b b'.
  Definition sim {B} (bad : B -> B -> Prop) (m m' : dev -> dev * B) : Prop := forall d e, R d e -> outcome bad (m d) (m' e).
  Definition io {A} (r : res A) : Prop := (exists k, K k /\ r = Err (EIo k)) \/ F /\ r = OutOfFuel.
  Definition bM {A} (r _ : res A) : Prop := io r.
  Definition bS {S A} (p _ : S * res A) : Prop := io (snd p).
  Definition bI {A} (i _ : item A) : Prop := exists r, i = Some r /\ io r.
  Definition bSI {S A} (p _ : S * item A) : Prop := exists r, snd p = Some r /\ io r.
  (** What has been printed or written before the error is a beginning of what would have been. *)
  Definition bP {X A} (p q : list X * res A) : Prop := io (snd p) /\ exists t, fst q = fst p ++ t.
  Definition fu (k k' : nat) : Prop := F /\ (k <= k')%nat \/ k = k'.

  Lemma outcome_bad {B} (bad : B -> B -> Prop) d b y : Q d -> (forall b', bad b b') -> outcome bad (d, b) y.
  Proof. intros H1 H2. destruct y as [d' b']. right. auto. Qed.
  Lemma outcome_same {B} (bad : B -> B -> Prop) d e b : R d e -> outcome bad (d, b) (e, b).
  Proof. intros H. left. auto. Qed.
  Lemma io_err {A} k : K k -> @io A (Err (EIo k)).
  Proof. intros H. left. exists k. auto. Qed.
  Lemma io_fuel {A} : F -> @io A OutOfFuel.
  Proof. intros H. right. auto. Qed.

  (** One call: the same on both sides, or an error. *)
  Ltac call lem :=
    let O := fresh "O" in let d1 := fresh "d" in let d2 := fresh "e" in let b1 := fresh "b" in let b2 := fresh "c" in let H := fresh "Hd" in let B := fresh "B" in
    pose proof lem as O;
    match type of O with outcome _ ?x ?y => destruct x as [d1 b1]; destruct y as [d2 b2] end;
    destruct O as [[H ->]|[H B]].
  Ltac same := apply outcome_same; assumption.
  Ltac bads :=
    let E2 := fresh "E" in let r := fresh "r" in let HI := fresh "HI" in let k := fresh "k" in let HK := fresh "HK" in
    match goal with
    | B : bM ?b _ |- _ => unfold bM in B; rename B into HI
    | B : bS ?b _ |- _ => destruct b as [? ?]; unfold bS in B; cbn [snd] in B; rename B into HI
    | B : bI ?b _ |- _ => destruct B as (r & -> & HI)
    | B : bSI ?b _ |- _ => destruct b as [? ?]; destruct B as (r & E2 & HI); cbn [snd] in E2; subst
    end;
    destruct HI as [(k & HK & ->)|(HK & ->)];
    [try (apply outcome_bad; [assumption|intros ?; first [apply io_err; exact HK | eexists; split; [reflexivity|apply io_err; exact HK]]])
    |try (apply outcome_bad; [assumption|intros ?; first [apply io_fuel; exact HK | eexists; split; [reflexivity|apply io_fuel; exact HK]]])].
  (** The fuel of the first run is used up. *)
  Ltac nofuel Hf := let HF := fresh "HF" in let Hl := fresh "Hl" in
    destruct Hf as [(HF & Hl)|Hl]; [|discriminate Hl];
    apply outcome_bad; [eapply R_Q; [exact HF|eassumption]|intros ?; first [apply io_fuel; exact HF | eexists; split; [reflexivity|apply io_fuel; exact HF]]].
  Lemma fu_S k k' : fu (S k) k' -> exists j, k' = S j /\ fu k j.
  Proof. intros [(H & L)|<-]; [|exists k; split; auto; right; auto]. destruct k' as [|j]; [lia|]. exists j. split; auto. left. split; auto. lia. Qed.

  Lemma sim_ret {A} (a : A) : sim bM (mret a) (mret a).
  Proof. intros d e Hd. unfold mret. same. Qed.
  Lemma sim_lift {A} (r : res A) : sim bM (mlift r) (mlift r).
  Proof. intros d e Hd. unfold mlift. same. Qed.
  Lemma sim_bind {A B} (m m' : M A) (f f' : A -> M B) : sim bM m m' -> (forall a, sim bM (f a) (f' a)) -> sim bM (mbind m f) (mbind m' f').
  Proof. intros Hm Hf d e Hd. unfold mbind. call (Hm d e Hd); [destruct b; try same; apply Hf; assumption|bads]. Qed.

  Ltac sims := repeat match goal with
    | |- sim bM (mret _) _ => apply sim_ret
    | |- sim bM (mlift _) _ => apply sim_lift
    | |- sim bM (mbind _ _) _ => apply sim_bind; [|intros ?]
    end.

  Section Device.
  Hypothesis R_same : forall d e, R d e -> length (d_reads e) = length (d_reads d).
  Hypothesis dev_seek_sim : forall n, sim bM (dev_seek n) (dev_seek n).
  Hypothesis dev_read_sim : forall n, sim bM (dev_read n) (dev_read n).
  Lemma dev_read_exact_loop_sim k : forall n acc, sim bM (dev_read_exact_loop k n acc) (dev_read_exact_loop k n acc).
  Proof.
    induction k as [|k IH]; intros n acc d e Hd; cbn [dev_read_exact_loop]; destruct (n <=? 0); try same.
    call (dev_read_sim n d e Hd).
    - destruct b as [[|x t]|x| |]; try same; try (apply IH; assumption).
      destruct x; try same. match goal with |- context [match ?k with Interrupted => _ | _ => _ end] => destruct k end; try same. apply IH; assumption.
    - bads. destruct k0; try (apply outcome_bad; [assumption|intros ?; apply io_err; exact HK]). contradiction.
  Qed.
  Lemma dev_read_exact_sim n : sim bM (dev_read_exact n) (dev_read_exact n).
  Proof. intros d e Hd. unfold dev_read_exact. rewrite (R_same d e Hd). apply dev_read_exact_loop_sim. exact Hd. Qed.

  (** Values that are read from the device. *)
  Lemma run_read_sim r n : sim bS (run_read r n) (run_read r n).
  Proof.
    intros d e Hd. unfold run_read. destruct (_ =? 0); [same|]. destruct (r_pos r) as [p|]; [|same]. destruct (U64_MAX <? _); [same|].
    call (dev_seek_sim (p + r_sp r) d e Hd); [|bads]. destruct b; try same.
    call (dev_read_sim (Z.min n (run_remaining r)) d0 e0 ltac:(assumption)); [destruct b; same|bads].
  Qed.
  Lemma ss_read_data_run_sim s n : sim bS (ss_read_data_run s n) (ss_read_data_run s n).
  Proof.
    intros d e Hd. unfold ss_read_data_run. destruct (ss_run s) as [r|]; [|same]. destruct (_ <=? _); [same|]. cbv zeta. destruct (_ =? 0); [same|].
    call (run_read_sim r (Z.min n (Z.max 0 (ss_size s - ss_pos s))) d e Hd); [destruct b as [r1 [bs|x| |]]; same|bads].
  Qed.
  Lemma dev_at_read_sim p n : sim bM (do _u <- dev_seek p; dev_read_exact n) (do _u <- dev_seek p; dev_read_exact n).
  Proof. apply sim_bind; [apply dev_seek_sim|intros _; apply dev_read_exact_sim]. Qed.
  Section Stream.
    Variable S0 : Type.
    Variable o : stream_ops S0.
    Hypothesis Ha : forall s, sim bS (so_advance o s) (so_advance o s).
    Lemma dev_stream_read_loop_sim k : forall k' s n acc, fu k k' -> sim bS (stream_read_loop o k s n acc) (stream_read_loop o k' s n acc).
    Proof.
      induction k as [|k IH]; intros k' s n acc Hf d e Hd.
      { cbn [stream_read_loop]. destruct k'; cbn [stream_read_loop]; destruct (n <=? zlen acc); try same. nofuel Hf. }
      destruct (fu_S _ _ Hf) as (j & -> & Hj). cbn [stream_read_loop]. destruct (n <=? zlen acc); try same.
      call (ss_read_data_run_sim (so_ss o s) (n - zlen acc) d e Hd); [|bads].
      destruct b as [ss1 [[|x t]|x| |]]; try same; [|apply IH; assumption].
      call (Ha (so_set o s ss1) d0 e0 ltac:(assumption)); [|bads]. destruct b as [s2 [[|]|x| |]]; try same. apply IH; assumption.
    Qed.
  End Stream.
  End Device.

  (** What is needed of the device: how many calls are still under control of the schedule, and what it means to read the bytes at a position, or those of a value. *)
  Hypothesis R_reads : forall d e, R d e -> fu (length (d_reads d)) (length (d_reads e)).
  Hypothesis R_seeks : forall d e, R d e -> fu (length (d_seeks d)) (length (d_seeks e)).
  Hypothesis at_read_sim : forall p n, sim bM (do _u <- dev_seek p; dev_read_exact n) (do _u <- dev_seek p; dev_read_exact n).
  Definition stream_reads : Prop := forall (S0 : Type) (o : stream_ops S0), lens o -> (forall s, sim bS (so_advance o s) (so_advance o s)) ->
    forall k k' s n acc, fu k k' -> sim bS (stream_read_loop o k s n acc) (stream_read_loop o k' s n acc).
  Hypothesis stream_read_loop_sim : stream_reads.
  Section Stream.
    Variable S0 : Type.
    Variable o : stream_ops S0.
    Hypothesis Ha : forall s, sim bS (so_advance o s) (so_advance o s).
    Hypothesis Hr : forall s, sim bS (so_rewind o s) (so_rewind o s).
    Lemma stream_seek_loop_sim k : forall k' s st n, fu k k' -> sim bS (stream_seek_loop o k s st n) (stream_seek_loop o k' s st n).
    Proof.
      induction k as [|k IH]; intros k' s st n Hf d e Hd.
      { cbn [stream_seek_loop]. destruct k'; cbn [stream_seek_loop]; destruct (n <=? 0); try same. nofuel Hf. }
      destruct (fu_S _ _ Hf) as (j & -> & Hj). cbn [stream_seek_loop]. destruct (n <=? 0); try same.
      destruct (ss_seek_data_run (so_ss o s) st n) as [[ss1 l1] [[|]|x| |]]; try same.
      call (Ha (so_set o s ss1) d e ltac:(assumption)); [|bads]. destruct b as [s2 [[|]|x| |]]; try same. apply IH; assumption.
    Qed.
    Lemma stream_seek_finish_sim pos x y : outcome bS x y -> outcome bS (stream_seek_finish o pos x) (stream_seek_finish o pos y).
    Proof.
      destruct x as [d b], y as [e c]. intros [[Hd ->]|[Hd B]]; unfold stream_seek_finish; [|bads].
      destruct b as [s [u|x| |]]; try same. destruct pos; try same. cbv zeta. destruct (U64_MAX <? _); same.
    Qed.
    Lemma stream_seek_sim k k' s len pos : fu k k' -> sim bS (stream_seek o k s len pos) (stream_seek o k' s len pos).
    Proof.
      intros Hf d e Hd. unfold stream_seek. destruct (optimize_seek (so_ss o s) pos len) as [[n|n|n]|x| |]; try same.
      - call (Hr s d e Hd); [|bads]. destruct b as [s1 [u|x| |]]; try same. apply stream_seek_finish_sim, stream_seek_loop_sim; assumption.
      - destruct (0 <=? n); [|same]. apply stream_seek_finish_sim, stream_seek_loop_sim; assumption.
    Qed.
  End Stream.
  Lemma fu_same k : fu k k.
  Proof. right. reflexivity. Qed.
  Lemma fu_add a a' b b' : fu a a' -> fu b b' -> fu (a + b) (a' + b').
  Proof. intros [(H & L)|<-] [(H' & L')|<-]; [left|left|left|right; reflexivity]; split; auto; lia. Qed.
  Lemma nr_fuel_le v d e : R d e -> fu (nr_fuel v d) (nr_fuel v e).
  Proof. intros H. unfold nr_fuel. auto using fu_add, fu_same. Qed.
  Lemma nr_lens : lens nr_ops.
  Proof. split; [|split]; intros []; reflexivity. Qed.
  Lemma lv_lens : lens lv_ops.
  Proof. split; [|split]; intros []; reflexivity. Qed.
  Lemma nr_read_sim v n : sim bS (nr_read v n) (nr_read v n).
  Proof.
    intros d e Hd. unfold nr_read. apply stream_read_loop_sim; auto using nr_lens, nr_fuel_le. intros s d1 e1 He. cbn. same.
  Qed.
  Lemma nr_seek_sim v pos : sim bS (nr_seek v pos) (nr_seek v pos).
  Proof.
    intros d e Hd. unfold nr_seek. apply stream_seek_sim; auto using nr_fuel_le; intros s d1 e1 He; cbn; same.
  Qed.
  Lemma res_read_sim v n : sim bS (res_read v n) (res_read v n).
  Proof. intros d e Hd. unfold res_read. cbv zeta. destruct (_ =? 0); [same|]. destruct (idx_range _ _ _); same. Qed.
  Lemma res_seek_sim v pos : sim bS (res_seek v pos) (res_seek v pos).
  Proof. intros d e Hd. unfold res_seek. destruct (seek_contiguous _ _ _). same. Qed.
  Lemma sv_read_sim v n : sim bS (sv_read v n) (sv_read v n).
  Proof.
    intros d e Hd. destruct v as [v|v]; cbn [sv_read]; [call (res_read_sim v n d e Hd)|call (nr_read_sim v n d e Hd)]; try (destruct b; same); bads.
  Qed.
  Lemma sv_seek_sim v pos : sim bS (sv_seek v pos) (sv_seek v pos).
  Proof.
    intros d e Hd. destruct v as [v|v]; cbn [sv_seek]; [call (res_seek_sim v pos d e Hd)|call (nr_seek_sim v pos d e Hd)]; try (destruct b; same); bads.
  Qed.
  Section Exact.
    Variable S0 : Type.
    Variables read read' : S0 -> Z -> dev -> dev * (S0 * res (list Z)).
    Hypothesis Hread : forall s n, sim bS (read s n) (read' s n).
    Lemma rs_read_exact_loop_sim k : forall k' s n acc, fu k k' -> sim bS (rs_read_exact_loop read k s n acc) (rs_read_exact_loop read' k' s n acc).
    Proof.
      induction k as [|k IH]; intros k' s n acc Hf d e Hd.
      { cbn [rs_read_exact_loop]. destruct k'; cbn [rs_read_exact_loop]; destruct (n <=? 0); try same. nofuel Hf. }
      destruct (fu_S _ _ Hf) as (j & -> & Hj). cbn [rs_read_exact_loop]. destruct (n <=? 0); try same.
      call (Hread s n d e Hd).
      - destruct b as [s1 [[|x t]|x| |]]; try same; try (apply IH; assumption). destruct x; try same.
        match goal with |- context [match ?k with Interrupted => _ | _ => _ end] => destruct k end; try same. apply IH; assumption.
      - bads. destruct k0; try (apply outcome_bad; [assumption|intros ?; apply io_err; exact HK]). contradiction.
    Qed.
    Lemma rs_read_exact_sim s n : sim bS (rs_read_exact read s n) (rs_read_exact read' s n).
    Proof. intros d e Hd. unfold rs_read_exact. apply rs_read_exact_loop_sim; [|exact Hd]. auto 6 using fu_add, fu_same. Qed.
    Lemma attached_sim s n : sim bS (attached read s n) (attached read' s n).
    Proof. intros d e Hd. unfold attached. call (Hread s n d e Hd); [destruct b as [s1 [bs|x| |]]; same|bads]. Qed.
  End Exact.
  Definition simR {S A} (m m' : RM S A) : Prop := forall s, sim bS (m s) (m' s).
  Lemma simR_ret {S A} (a : A) : @simR S A (rm_ret a) (rm_ret a).
  Proof. intros s d e Hd. unfold rm_ret. same. Qed.
  Lemma simR_err {S A} x : @simR S A (rm_err x) (rm_err x).
  Proof. intros s d e Hd. unfold rm_err. same. Qed.
  Lemma simR_bind {S A B} (m m' : RM S A) (f f' : A -> RM S B) : simR m m' -> (forall a, simR (f a) (f' a)) -> simR (rm_bind m f) (rm_bind m' f').
  Proof. intros Hm Hf s d e Hd. unfold rm_bind. call (Hm s d e Hd); [destruct b as [s1 [a|x| |]]; try same; apply Hf; assumption|bads]. Qed.
  Lemma attached_exact_sim {S} (read read' : S -> Z -> dev -> dev * (S * res (list Z))) n : (forall s n, sim bS (read s n) (read' s n)) ->
    simR (attached_exact read n) (attached_exact read' n).
  Proof. intros H s. apply rs_read_exact_sim. intros s' n'. apply attached_sim. exact H. Qed.
  (** Parsers that use the reader only through [rx]. *)
  Definition parser {S A} (new : (Z -> RM S (list Z)) -> position -> Z -> RM S A) : Prop :=
    forall rx rx' p len, (forall n, simR (rx n) (rx' n)) -> simR (new rx p len) (new rx' p len).
  Lemma le_new_sim {S} (rx rx' : Z -> RM S (list Z)) p : (forall n, simR (rx n) (rx' n)) -> simR (le_new rx p) (le_new rx' p).
  Proof.
    intros H. unfold le_new. apply simR_bind; auto. intros h. cbv zeta. destruct (_ <? _); [apply simR_err|]. apply simR_bind; auto. intros a. apply simR_ret.
  Qed.
  Lemma fn_new_sim {S} : @parser S _ fn_new.
  Proof.
    intros rx rx' p len H. unfold fn_new. destruct (_ <? _); [apply simR_err|]. apply simR_bind; auto. intros h. cbv zeta. destruct (_ <? _); [apply simR_err|].
    destruct (_ <? _); [apply simR_err|]. apply simR_bind; auto. intros a. apply simR_ret.
  Qed.
  Lemma si_new_sim {S} : @parser S _ si_new.
  Proof.
    intros rx rx' p len H. unfold si_new. destruct (_ <? _); [apply simR_err|]. apply simR_bind; auto. intros b1. destruct (_ <=? _); [|apply simR_ret].
    apply simR_bind; auto. intros b3. apply simR_ret.
  Qed.
  Lemma vi_new_sim {S} : @parser S _ vi_new.
  Proof. intros rx rx' p len H. unfold vi_new. destruct (_ <? _); [apply simR_err|]. apply simR_bind; auto. intros b. apply simR_ret. Qed.
  Lemma vn_new_sim {S} : @parser S _ vn_new.
  Proof. intros rx rx' p len H. unfold vn_new. destruct (_ <? _); [apply simR_err|apply H]. Qed.
  Lemma oi_new_sim {S} : @parser S _ oi_new.
  Proof.
    intros rx rx' p len H. unfold oi_new. destruct (_ <? _); [apply simR_err|]. apply simR_bind; auto. intros b0.
    apply simR_bind; [destruct (_ <=? _); [apply simR_bind; auto; intros b; apply simR_ret|apply simR_ret]|intros b1].
    apply simR_bind; [destruct (_ <=? _); [apply simR_bind; auto; intros b; apply simR_ret|apply simR_ret]|intros b2].
    apply simR_bind; [destruct (_ <=? _); [apply simR_bind; auto; intros b; apply simR_ret|apply simR_ret]|intros b3]. apply simR_ret.
  Qed.

  (** File records. *)
  Lemma sim_at_read {A} p n (f f' : list Z -> M A) : (forall bs, sim bM (f bs) (f' bs)) ->
    sim bM (do _u <- dev_seek p; do bs <- dev_read_exact n; f bs) (do _u <- dev_seek p; do bs <- dev_read_exact n; f' bs).
  Proof.
    intros H d e Hd. pose proof (sim_bind _ _ f f' (at_read_sim p n) H d e Hd) as O. unfold mbind in *.
    destruct (dev_seek p d) as [d1 [u|x| |]], (dev_seek p e) as [e1 [u'|x'| |]]; exact O.
  Qed.
  Lemma file_new_sim nt p n : sim bM (file_new nt p n) (file_new nt p n).
  Proof. unfold file_new. apply sim_at_read. intros data. apply sim_lift. Qed.
  Lemma ntfs_file_sim nt n : sim bM (ntfs_file nt n) (ntfs_file nt n).
  Proof.
    unfold ntfs_file. destruct (checked_mul64 _ _) as [off|]; [|apply sim_lift]. destruct (mft_position nt) as [mp|]; [|apply sim_lift].
    apply sim_bind; [apply file_new_sim|intros mft]. apply sim_bind; [apply sim_lift|intros a]. apply sim_bind; [apply sim_lift|intros v].
    intros d e Hd. call (sv_seek_sim v (SStart off) d e Hd); [|bads]. destruct b as [v1 [x|x| |]]; try same. destruct (sv_data_position v1); [|same].
    apply file_new_sim. assumption.
  Qed.
  Lemma ntfs_new_sim : sim bM ntfs_new ntfs_new.
  Proof. unfold ntfs_new. apply sim_at_read. intros b. apply sim_lift. Qed.

  (** Attribute lists. *)
  Lemma alist_next_sim l : sim bSI (alist_next l) (alist_next l).
  Proof.
    intros d e Hd. destruct l as [sl p|v]; cbn [alist_next].
    - destruct sl as [|x t]; [same|]. destruct (snd (snd _)); try same. destruct (_ <=? _); same.
    - destruct (_ <=? _); [same|].
      call (le_new_sim (attached_exact nr_read) (attached_exact nr_read) (nr_data_position v) (fun n => attached_exact_sim nr_read nr_read n nr_read_sim) v d e Hd); [|bads].
      destruct b as [v1 [x|x| |]]; try same. call (nr_seek_sim v (SCurrent (le_length x)) d0 e0 ltac:(assumption)); [destruct b as [v2 [y|y| |]]; same|bads].
  Qed.
  Lemma lv_next_entry_sim v : sim bSI (lv_next_entry v) (lv_next_entry v).
  Proof.
    intros d e Hd. unfold lv_next_entry. destruct (lv_entries v) as [l|]; [|same]. call (alist_next_sim l d e Hd); [|bads].
    destruct b as [l1 [[x|x| |]|]]; try same. cbv zeta. destruct (_ =? _); [|same]. destruct (le_ty x); try same. destruct (_ =? _); same.
  Qed.
  Lemma lv_next_attribute_sim v : sim bS (lv_next_attribute v) (lv_next_attribute v).
  Proof.
    intros d e Hd. unfold lv_next_attribute. call (lv_next_entry_sim v d e Hd); [|bads]. destruct b as [v1 [[x|x| |]|]]; try same.
    unfold le_to_file. call (ntfs_file_sim (lv_ntfs v) (le_number x) d0 e0 ltac:(assumption)); [|bads]. destruct b as [f|y| |]; try same.
    destruct (le_to_attribute x f) as [a|y| |]; try same. destruct (lv_attr_runs a) as [[data p]|y| |]; try same.
    destruct (druns_next _ _ _ _) as [s [[r|y| |]|]]; same.
  Qed.
  Lemma lv_new_sim nt l i ty n : sim bM (lv_new nt l i ty n) (lv_new nt l i ty n).
  Proof. intros d e Hd. unfold lv_new. call (lv_next_attribute_sim (mkLv nt l (Some l) i ty n None (ss_new n)) d e Hd); [destruct b as [v [x|x| |]]; same|bads]. Qed.
  Lemma lv_rewind_sim v : sim bS (lv_rewind v) (lv_rewind v).
  Proof.
    intros d e Hd. unfold lv_rewind. call (lv_next_attribute_sim (lv_set_ss (lv_set_entries v (Some (lv_initial v))) (ss_new (lv_size v))) d e Hd);
    [destruct b as [v1 [x|x| |]]; same|bads].
  Qed.
  Lemma lv_advance_sim v : sim bS (lv_advance v) (lv_advance v).
  Proof. intros d e Hd. unfold lv_advance. destruct (lv_next_data_run v) as [v1 [[|]|x| |]]; try same. apply lv_next_attribute_sim. exact Hd. Qed.
  Lemma attr_value_sim nt a : sim bM (attr_value nt a) (attr_value nt a).
  Proof. unfold attr_value. destruct (at_entries a); sims. apply lv_new_sim. Qed.

  (** From here on with different fuel. *)
  Lemma lv_read_sim k k' v n : fu k k' -> sim bS (lv_read k v n) (lv_read k' v n).
  Proof. apply stream_read_loop_sim; [exact lv_lens|exact lv_advance_sim]. Qed.
  Lemma lv_seek_sim k k' v pos : fu k k' -> sim bS (lv_seek k v pos) (lv_seek k' v pos).
  Proof. apply stream_seek_sim; [exact lv_advance_sim|exact lv_rewind_sim]. Qed.
  Lemma av_read_sim k k' : fu k k' -> forall v n, sim bS (av_read k v n) (av_read k' v n).
  Proof.
    intros Hf v n d e Hd. destruct v as [v|v]; cbn [av_read]; [call (sv_read_sim v n d e Hd)|call (lv_read_sim k k' v n Hf d e Hd)]; try (destruct b; same); bads.
  Qed.
  Lemma av_seek_sim k k' : fu k k' -> forall v pos, sim bS (av_seek k v pos) (av_seek k' v pos).
  Proof.
    intros Hf v pos d e Hd. destruct v as [v|v]; cbn [av_seek]; [call (sv_seek_sim v pos d e Hd)|call (lv_seek_sim k k' v pos Hf d e Hd)]; try (destruct b; same); bads.
  Qed.
  Lemma from_aval_sim {A} k k' (new : (Z -> RM aval (list Z)) -> position -> Z -> RM aval A) v : fu k k' -> parser new -> sim bM (from_aval k new v) (from_aval k' new v).
  Proof.
    intros Hf H d e Hd. unfold from_aval.
    call (H (attached_exact (av_read k)) (attached_exact (av_read k')) (av_data_position v) (av_len v) (fun n => attached_exact_sim _ _ n (av_read_sim k k' Hf)) v d e Hd);
    [destruct b; same|bads].
  Qed.
  Lemma attr_structured_sim {A} k k' nt (new : (Z -> RM aval (list Z)) -> position -> Z -> RM aval A) ty a : fu k k' -> parser new ->
    sim bM (attr_structured k nt new ty a) (attr_structured k' nt new ty a).
  Proof. intros Hf H. unfold attr_structured. sims; [apply attr_value_sim|apply from_aval_sim; assumption]. Qed.

  (** Attributes of a file. *)
  Lemma attrs_entry_item_sim nt st l x ty : sim bSI (attrs_entry_item nt st l x ty) (attrs_entry_item nt st l x ty).
  Proof.
    intros d e Hd. unfold attrs_entry_item, le_to_file. cbv zeta. call (ntfs_file_sim nt (le_number x) d e Hd); [|bads]. destruct b as [f|y| |]; try same.
    destruct (rbind _ _) as [[a [|]]|y| |]; same.
  Qed.
  (** The part of [attrs_next] for the attributes in the record itself. *)
  Definition raw_part (k : nat) (nt : ntfs) (st : attrs) (d : dev) : dev * (attrs * item attr_item) :=
    match raw_next (ax_file st) (ax_raw st) with
    | (s', None) => (d, (mkAttrs (ax_file st) s' (ax_list st) (ax_skip st), None))
    | (s', Some (Ok a)) =>
        match attr_ty a with
        | Ok ty =>
            if ty =? TY_AttributeList then
              match attr_value_simple (cluster_size nt) a with
              | Ok v => attrs_next k nt (mkAttrs (ax_file st) s' (Some (alist_of_sval v)) (ax_skip st)) d
              | Err x => (d, (mkAttrs (ax_file st) s' (ax_list st) (ax_skip st), Some (Err x)))
              | Panic => (d, (mkAttrs (ax_file st) s' (ax_list st) (ax_skip st), Some Panic))
              | OutOfFuel => (d, (mkAttrs (ax_file st) s' (ax_list st) (ax_skip st), Some OutOfFuel))
              end
            else (d, (mkAttrs (ax_file st) s' (ax_list st) (ax_skip st), Some (Ok (mkItem (ax_file st) None (at_offset a) None))))
        | Err _ => (d, (mkAttrs (ax_file st) s' (ax_list st) (ax_skip st), Some (Ok (mkItem (ax_file st) None (at_offset a) None))))
        | Panic => (d, (mkAttrs (ax_file st) s' (ax_list st) (ax_skip st), Some Panic))
        | OutOfFuel => (d, (mkAttrs (ax_file st) s' (ax_list st) (ax_skip st), Some OutOfFuel))
        end
    | (s', Some (Err x)) => (d, (mkAttrs (ax_file st) s' (ax_list st) (ax_skip st), Some (Err x)))
    | (s', Some Panic) => (d, (mkAttrs (ax_file st) s' (ax_list st) (ax_skip st), Some Panic))
    | (s', Some OutOfFuel) => (d, (mkAttrs (ax_file st) s' (ax_list st) (ax_skip st), Some OutOfFuel))
    end.
  Lemma attrs_next_S k nt st d : attrs_next (S k) nt st d =
      match ax_list st with
      | None => raw_part k nt st d
      | Some l =>
          match alist_next l d with
          | (d1, (l1, None)) => raw_part k nt (mkAttrs (ax_file st) (ax_raw st) (Some l1) (ax_skip st)) d1
          | (d1, (l1, Some (Ok x))) =>
              match le_ty x with
              | Ok ty =>
                  if le_number x =? f_number (ax_file st) then attrs_next k nt (mkAttrs (ax_file st) (ax_raw st) (Some l1) (ax_skip st)) d1
                  else if (match ax_skip st with Some (i, t) => (le_instance x =? i) && (ty =? t) | None => false end)
                  then attrs_next k nt (mkAttrs (ax_file st) (ax_raw st) (Some l1) (ax_skip st)) d1
                  else attrs_entry_item nt (mkAttrs (ax_file st) (ax_raw st) (Some l1) (ax_skip st)) l x ty d1
              | Err y => (d1, (mkAttrs (ax_file st) (ax_raw st) (Some l1) (ax_skip st), Some (Err y)))
              | Panic => (d1, (mkAttrs (ax_file st) (ax_raw st) (Some l1) (ax_skip st), Some Panic))
              | OutOfFuel => (d1, (mkAttrs (ax_file st) (ax_raw st) (Some l1) (ax_skip st), Some OutOfFuel))
              end
          | (d1, (l1, Some (Err x))) => (d1, (mkAttrs (ax_file st) (ax_raw st) (Some l1) (ax_skip st), Some (Err x)))
          | (d1, (l1, Some Panic)) => (d1, (mkAttrs (ax_file st) (ax_raw st) (Some l1) (ax_skip st), Some Panic))
          | (d1, (l1, Some OutOfFuel)) => (d1, (mkAttrs (ax_file st) (ax_raw st) (Some l1) (ax_skip st), Some OutOfFuel))
          end
      end.
  Proof. unfold raw_part. destruct st as [f s [l|] sk]; reflexivity. Qed.
  Lemma attrs_next_sim nt k : forall k' st, fu k k' -> sim bSI (attrs_next k nt st) (attrs_next k' nt st).
  Proof.
    induction k as [|k IH]; intros k' st Hf d e Hd.
    { cbn [attrs_next]. destruct k' as [|k']; [same|]. nofuel Hf. }
    destruct (fu_S _ _ Hf) as (j & -> & Hj). rewrite !attrs_next_S.
    assert (Hraw : forall st, sim bSI (raw_part k nt st) (raw_part j nt st)).
    { clear st d e Hd. intros st d e Hd. unfold raw_part. destruct (raw_next _ _) as [s1 [[a|x| |]|]]; try same. destruct (attr_ty a) as [ty|x| |]; try same.
      destruct (_ =? _); [|same]. destruct (attr_value_simple _ _); try same. apply IH; assumption. }
    destruct (ax_list st) as [l|]; [|apply Hraw; assumption].
    call (alist_next_sim l d e Hd); [|bads]. destruct b as [l1 [[x|x| |]|]]; try same; [|apply Hraw; assumption].
    destruct (le_ty x) as [ty|y| |]; try same. destruct (_ =? _); [apply IH; assumption|].
    destruct (match ax_skip st with Some (i, t) => _ | None => false end); [apply IH; assumption|]. apply attrs_entry_item_sim. assumption.
  Qed.
  Lemma attrs_search_sim {A} nt (accept accept' : attr_item -> attribute -> M (option A)) : (forall i a, sim bM (accept i a) (accept' i a)) ->
    forall k k' st, fu k k' -> sim bM (attrs_search k nt accept st) (attrs_search k' nt accept' st).
  Proof.
    intros Hacc. induction k as [|k IH]; intros k' st Hf d e Hd.
    { cbn [attrs_search]. destruct k' as [|k']; [same|]. nofuel Hf. }
    destruct (fu_S _ _ Hf) as (j & -> & Hj). cbn [attrs_search].
    call (attrs_next_sim nt (S k) (S j) st Hf d e Hd); [|bads]. destruct b as [st1 [[i|x| |]|]]; try same.
    destruct (item_to_attribute i) as [a|x| |]; try same. call (Hacc i a d0 e0 ltac:(assumption)); [|bads]. destruct b as [[x|]|x| |]; try same. apply IH; assumption.
  Qed.
  Section Fuel.
    Variables fuel fuel' : nat.
    Hypothesis Hfu : fu fuel fuel'.
    Lemma find_attribute_sim nt f ty name : sim bM (find_attribute fuel nt f ty name) (find_attribute fuel' nt f ty name).
    Proof. unfold find_attribute. sims. apply attrs_search_sim; auto. intros i b. apply sim_lift. Qed.
    Lemma file_name_of_sim nt f ns parent : sim bM (file_name_of fuel nt f ns parent) (file_name_of fuel' nt f ns parent).
    Proof.
      unfold file_name_of. sims. apply attrs_search_sim; auto. intros i b. apply sim_bind; [apply sim_lift|intros ty]. destruct (negb _); [apply sim_ret|].
      apply sim_bind; [apply attr_structured_sim; [exact Hfu|apply fn_new_sim]|intros fn]. apply sim_bind; [apply sim_lift|intros n]. destruct (negb _); [apply sim_ret|].
      destruct (negb _); apply sim_ret.
    Qed.
    Lemma file_data_sim nt f stream : sim bM (file_data fuel nt f stream) (file_data fuel' nt f stream).
    Proof. unfold file_data. sims. apply attrs_search_sim; auto. intros i b. apply sim_lift. Qed.
    Lemma upcase_read_sim nt : sim bM (upcase_read fuel nt) (upcase_read fuel' nt).
    Proof.
      unfold upcase_read. apply sim_bind; [apply ntfs_file_sim|intros f]. apply sim_bind; [apply file_data_sim|intros x]. sims. destruct (negb _); [apply sim_lift|].
      apply sim_bind; [apply attr_value_sim|intros v]. intros d e Hd. call (rs_read_exact_sim _ _ _ (av_read_sim fuel fuel' Hfu) v UPCASE_TABLE_SIZE d e Hd); [|bads].
      destruct b as [v1 [bs|q| |]]; same.
    Qed.
    Lemma read_upcase_table_sim nt : sim bM (read_upcase_table fuel nt) (read_upcase_table fuel' nt).
    Proof. unfold read_upcase_table. sims. apply upcase_read_sim. Qed.

    (** Indexes. *)
    Lemma irec_new_sim v size : sim bM (irec_new fuel v size) (irec_new fuel' v size).
    Proof. intros d e Hd. unfold irec_new. call (rs_read_exact_sim _ _ _ (av_read_sim fuel fuel' Hfu) v size d e Hd); [|bads]. destruct b as [v1 [bs|x| |]]; same. Qed.
    Lemma record_from_vcn_sim nt v size vcn : sim bM (record_from_vcn fuel nt v size vcn) (record_from_vcn fuel' nt v size vcn).
    Proof.
      unfold record_from_vcn. apply sim_bind; [apply sim_lift|intros off]. intros d e Hd. call (av_seek_sim fuel fuel' Hfu v (SCurrent off) d e Hd); [|bads].
      destruct b as [v1 [x|x| |]]; try same. destruct (_ <=? _); [same|]. apply sim_bind; [apply irec_new_sim|intros r|assumption].
      apply sim_bind; [apply sim_lift|intros y]. destruct (_ =? _); [apply sim_ret|apply sim_lift].
    Qed.
    Lemma index_records_next_sim size v : sim bSI (index_records_next fuel size v) (index_records_next fuel' size v).
    Proof.
      intros d e Hd. unfold index_records_next. destruct (_ <=? _); [same|]. call (irec_new_sim v size d e Hd); [|bads]. destruct b as [r|x| |]; try same.
      call (av_seek_sim fuel fuel' Hfu v (SCurrent size) d0 e0 ltac:(assumption)); [destruct b as [v2 [x|x| |]]; same|bads].
    Qed.
    Lemma directory_index_sim nt f : sim bM (directory_index fuel nt f) (directory_index fuel' nt f).
    Proof.
      unfold directory_index. apply sim_bind; [apply sim_lift|intros dir]. destruct (negb _); [apply sim_lift|].
      apply sim_bind; [apply find_attribute_sim|intros root]. apply sim_bind; [apply sim_lift|intros ra]. apply sim_bind; [apply sim_lift|intros ir].
      apply sim_bind; [apply sim_lift|intros large]. apply sim_bind; [|intros alloc; apply sim_lift]. destruct large; sims. apply find_attribute_sim.
    Qed.
    Lemma index_subnode_sim nt ix vcn : sim bM (index_subnode fuel nt ix vcn) (index_subnode fuel' nt ix vcn).
    Proof. unfold index_subnode. sims; [apply attr_value_sim|apply record_from_vcn_sim]. Qed.
  End Fuel.
  Lemma entries_loop_sim sub sub' : (forall vcn, sim bM (sub vcn) (sub' vcn)) -> forall k k' st, fu k k' -> sim bSI (entries_loop sub k st) (entries_loop sub' k' st).
  Proof.
    intros Hsub. induction k as [|k IH]; intros k' st Hf d e Hd.
    { cbn [entries_loop]. destruct k' as [|k']; [same|]. nofuel Hf. }
    destruct (fu_S _ _ Hf) as (j & -> & Hj). cbn [entries_loop]. destruct (es_iters st) as [|g below]; [same|].
    destruct (ranges_next g) as [g1 [[r|x| |]|]]; try same.
    - cbv zeta. destruct (rbind _ _) as [[y last]|x| |]; try same. destruct (ie_subnode_vcn y) as [[vcn|x| |]|]; try same.
      + call (Hsub vcn d e Hd); [|bads]. destruct b as [sg|x| |]; try same. apply IH; assumption.
      + destruct last; [apply IH; assumption|same].
    - destruct (es_following st) as [|[r|] fs]; try same. apply IH; assumption.
  Qed.
  Lemma entries_next_sim k k' nt ix st : fu k k' -> sim bSI (entries_next k nt ix st) (entries_next k' nt ix st).
  Proof. intros Hf. apply entries_loop_sim; auto. intros vcn. apply index_subnode_sim. exact Hf. Qed.
  Lemma find_loop_sim {X} (kp : list Z -> position -> res X) cmp sub sub' : (forall vcn, sim bM (sub vcn) (sub' vcn)) ->
    forall k k' g, fu k k' -> sim bI (find_loop kp cmp sub k g) (find_loop kp cmp sub' k' g).
  Proof.
    intros Hsub. induction k as [|k IH]; intros k' g Hf d e Hd.
    { cbn [find_loop]. destruct k' as [|k']; [same|]. nofuel Hf. }
    destruct (fu_S _ _ Hf) as (j & -> & Hj). cbn [find_loop].
    destruct (ranges_next g) as [g1 [[r|x| |]|]]; try same. destruct (er_to_entry r (rg_data g1)) as [y|x| |]; try same.
    destruct (match ie_key kp y with Some _ => _ | None => _ end) as [[| |]|x| |]; try same; [|apply IH; assumption].
    destruct (ie_subnode_vcn y) as [[vcn|x| |]|]; try same. call (Hsub vcn d e Hd); [|bads]. destruct b as [sg|x| |]; try same. apply IH; assumption.
  Qed.
  Lemma index_find_sim {X} (kp : list Z -> position -> res X) cmp k k' nt ix : fu k k' -> sim bI (index_find kp cmp k nt ix) (index_find kp cmp k' nt ix).
  Proof. intros Hf. apply find_loop_sim; auto. intros vcn. apply index_subnode_sim. exact Hf. Qed.
  Lemma file_name_find_sim k k' nt ix name : fu k k' -> sim bI (file_name_find k nt ix name) (file_name_find k' nt ix name).
  Proof. apply index_find_sim. Qed.
  Lemma ie_to_file_sim nt x : sim bM (ie_to_file nt x) (ie_to_file nt x).
  Proof. unfold ie_to_file. sims. apply ntfs_file_sim. Qed.

  (** The volume. *)
  Lemma volume_info_sim nt : sim bM (volume_info nt) (volume_info nt).
  Proof. unfold volume_info. sims. apply ntfs_file_sim. Qed.
  Lemma volume_name_sim nt : sim bI (volume_name nt) (volume_name nt).
  Proof. intros d e Hd. unfold volume_name. call (ntfs_file_sim nt 3 d e Hd); [destruct b; same|bads]. Qed.

  (** ** The example program *)
  Lemma bP_fail {X A B} (l : list X) (r : res A) (y : list X * res B) (t : list X) : io r -> fst y = l ++ t ->
    bP (l, match r with Ok _ => OutOfFuel | Err x => Err x | Panic => Panic | OutOfFuel => OutOfFuel end) y.
  Proof. intros H1 H2. split; [|exists t; exact H2]. cbn [snd]. destruct H1 as [(k & HK & ->)|(HF & ->)]; [apply io_err|apply io_fuel]; assumption. Qed.
  Lemma sim_pret {A} (a : A) : sim bP (pret a) (pret a).
  Proof. intros d e Hd. unfold pret. same. Qed.
  Lemma sim_plift {A} (r : res A) : sim bP (plift r) (plift r).
  Proof. intros d e Hd. unfold plift. same. Qed.
  Lemma sim_print x : sim bP (print x) (print x).
  Proof. intros d e Hd. unfold print. same. Qed.
  Lemma sim_pm {A} (m m' : M A) : sim bM m m' -> sim bP (pm m) (pm m').
  Proof. intros H d e Hd. unfold pm. call (H d e Hd); [same|]. right. split; auto. split; [exact B|]. exists []. reflexivity. Qed.
  Lemma sim_pbind {A C} (m m' : P A) (f f' : A -> P C) : sim bP m m' -> (forall a, sim bP (f a) (f' a)) -> sim bP (pbind m f) (pbind m' f').
  Proof.
    intros Hm Hf d e Hd. unfold pbind. call (Hm d e Hd).
    - destruct b as [l1 [a|x| |]]; try same. call (Hf a d0 e0 ltac:(assumption)); [destruct b; same|]. destruct b as [l2 r], c as [l3 r3]. destruct B as (B1 & t & B2). cbn [fst snd] in *.
      right. split; auto. split; [exact B1|]. exists t. cbn [fst]. rewrite B2. apply app_assoc.
    - destruct b as [l1 r], c as [l2 r2]. destruct B as (B1 & t & B2). cbn [fst snd] in *. subst l2.
      assert (G : forall y : dev * (list line * res C), (exists t, fst (snd y) = l1 ++ t) ->
        outcome bP (d0, (l1, match r with Ok _ => OutOfFuel | Err x => Err x | Panic => Panic | OutOfFuel => OutOfFuel end)) y).
      { intros [e1 y] (t' & Ht). right. split; auto. apply (bP_fail l1 r y t'); auto. }
      destruct r2 as [a|x| |]; [destruct (f' a e0) as [e1 [l3 r3]]|..];
        (destruct B1 as [(k & HK & ->)|(HF & ->)]; apply G; cbn [fst snd]; [..]; rewrite <- ?app_assoc; eexists; reflexivity).
  Qed.
  Ltac psims := repeat match goal with
    | |- sim bP (pret _) _ => apply sim_pret
    | |- sim bP (plift _) _ => apply sim_plift
    | |- sim bP (print _) _ => apply sim_print
    | |- sim bP (pm _) _ => apply sim_pm
    | |- sim bP (pbind _ _) _ => apply sim_pbind; [|intros ?]
    end.
  Section Shell.
    Variables fuel fuel' : nat.
    Hypothesis Hfu : fu fuel fuel'.
    Lemma shell_open_sim : sim bM (shell_open fuel) (shell_open fuel').
    Proof.
      unfold shell_open. apply sim_bind; [apply ntfs_new_sim|intros nt0]. apply sim_bind; [apply read_upcase_table_sim; exact Hfu|intros nt].
      apply sim_bind; [apply ntfs_file_sim|intros root]. apply sim_ret.
    Qed.
    Lemma parse_file_arg_sim nt sh arg : sim bM (parse_file_arg fuel nt sh arg) (parse_file_arg fuel' nt sh arg).
    Proof.
      unfold parse_file_arg. destruct arg as [|c t]; [apply sim_ret|]. destruct (c =? 47).
      { destruct (parse_number t); [|apply sim_ret]. sims. apply ntfs_file_sim. }
      apply sim_bind; [apply sim_lift|intros dir]. apply sim_bind; [apply directory_index_sim; exact Hfu|intros ix]. intros d e Hd.
      call (file_name_find_sim fuel fuel' nt ix (c :: t) Hfu d e Hd); [|bads]. destruct b as [[x|x| |]|]; try same.
      apply sim_bind; [apply ie_to_file_sim|intros f; apply sim_ret|assumption].
    Qed.
    Lemma first_file_name_sim nt f parent : forall l, sim bM (first_file_name fuel nt f parent l) (first_file_name fuel' nt f parent l).
    Proof.
      induction l as [|ns t IH]; cbn [first_file_name]; [apply sim_ret|]. apply sim_bind; [apply file_name_of_sim; exact Hfu|intros x]. destruct x; [apply sim_ret|exact IH].
    Qed.
    Lemma cd_sim nt sh arg : sim bM (cd fuel nt sh arg) (cd fuel' nt sh arg).
    Proof.
      unfold cd. destruct arg as [|c t]; [apply sim_ret|]. destruct (list_eqb _ _); [apply sim_ret|].
      apply sim_bind; [apply sim_lift|intros dir]. apply sim_bind; [apply directory_index_sim; exact Hfu|intros ix]. intros d e Hd.
      call (file_name_find_sim fuel fuel' nt ix (c :: t) Hfu d e Hd); [|bads]. destruct b as [[x|x| |]|]; try same.
      destruct (ie_key fn_from_slice x) as [[key|y| |]|]; try same. destruct (negb _); [same|].
      apply sim_bind; [apply ie_to_file_sim|intros f|assumption]. apply sim_bind; [apply first_file_name_sim|intros name]. destruct name; apply sim_ret.
    Qed.
    Lemma dir_loop_extends k : forall nt ix st acc d, exists t, fst (snd (dir_loop fuel' k nt ix st acc d)) = acc ++ t.
    Proof.
      induction k as [|k IH]; intros nt ix st acc d; cbn [dir_loop]; [exists []; now rewrite app_nil_r|].
      destruct (entries_next fuel' nt ix st d) as [d1 [st1 [[x|x| |]|]]]; try (exists []; now rewrite app_nil_r).
      destruct (ie_key fn_from_slice x) as [[key|y| |]|]; try (exists []; now rewrite app_nil_r).
      destruct (IH nt ix st1 (acc ++ [LEntry (fn_is_directory key) (units (fn_name key))]) d1) as (t & Ht). rewrite Ht, <- app_assoc. eexists. reflexivity.
    Qed.
    Lemma outcome_stop {X A} d (l : list X) (r : res A) (y : dev * (list X * res A)) : Q d -> io r -> (exists t, fst (snd y) = l ++ t) -> outcome bP (d, (l, r)) y.
    Proof. intros H1 H2 H3. destruct y as [e y]. right. split; auto. split; assumption. Qed.
    Lemma dir_loop_sim nt ix k : forall k' st acc, fu k k' -> sim bP (dir_loop fuel k nt ix st acc) (dir_loop fuel' k' nt ix st acc).
    Proof.
      induction k as [|k IH]; intros k' st acc Hf d e Hd.
      { pose proof (dir_loop_extends k' nt ix st acc e) as Hx. cbn [dir_loop] in *. destruct k' as [|k']; [same|].
        destruct Hf as [(HF & _)|E]; [|discriminate]. apply outcome_stop; [exact (R_Q _ _ HF Hd)|apply io_fuel; exact HF|exact Hx]. }
      destruct (fu_S _ _ Hf) as (j & -> & Hj). pose proof (dir_loop_extends (S j) nt ix st acc e) as Hx. cbn [dir_loop] in *.
      call (entries_next_sim fuel fuel' nt ix st Hfu d e Hd).
      - destruct b as [st1 [[x|x| |]|]]; try same. destruct (ie_key fn_from_slice x) as [[key|y| |]|]; try same. apply IH; assumption.
      - destruct b as [st1 i]. destruct B as (r & E & B). cbn [snd] in E. subst i.
        destruct B as [(q & HK & ->)|(HF & ->)]; apply outcome_stop; auto using (@io_err unit), (@io_fuel unit).
    Qed.
    Lemma dir_sim nt sh : sim bP (dir fuel nt sh) (dir fuel' nt sh).
    Proof.
      intros d e Hd. unfold dir.
      assert (Hs : sim bM (try f <- current_dir sh; directory_index fuel nt f) (try f <- current_dir sh; directory_index fuel' nt f)).
      { apply sim_bind; [apply sim_lift|intros f; apply directory_index_sim; exact Hfu]. }
      call (Hs d e Hd).
      - destruct b as [ix|x| |]; try same. apply dir_loop_sim; assumption.
      - destruct B as [(q & HK & ->)|(HF & ->)]; (apply outcome_stop; [assumption|auto using (@io_err unit), (@io_fuel unit)|eexists; reflexivity]).
    Qed.
    Lemma get_loop_extends k : forall v acc d, exists t, fst (snd (get_loop fuel' k v acc d)) = acc ++ t.
    Proof.
      induction k as [|k IH]; intros v acc d; cbn [get_loop]; [exists []; now rewrite app_nil_r|].
      destruct (av_read fuel' v 4096 d) as [d1 [v1 [bs|x| |]]]; try (exists []; now rewrite app_nil_r).
      destruct (zlen bs =? 0); [exists []; now rewrite app_nil_r|]. destruct (IH v1 (acc ++ bs) d1) as (t & Ht). rewrite Ht, <- app_assoc. eexists. reflexivity.
    Qed.
    Lemma get_loop_sim k : forall k' v acc, fu k k' -> sim bP (get_loop fuel k v acc) (get_loop fuel' k' v acc).
    Proof.
      induction k as [|k IH]; intros k' v acc Hf d e Hd.
      { pose proof (get_loop_extends k' v acc e) as Hx. cbn [get_loop] in *. destruct k' as [|k']; [same|].
        destruct Hf as [(HF & _)|E]; [|discriminate]. apply outcome_stop; [exact (R_Q _ _ HF Hd)|apply io_fuel; exact HF|exact Hx]. }
      destruct (fu_S _ _ Hf) as (j & -> & Hj). pose proof (get_loop_extends (S j) v acc e) as Hx. cbn [get_loop] in *.
      call (av_read_sim fuel fuel' Hfu v 4096 d e Hd).
      - destruct b as [v1 [bs|x| |]]; try same. destruct (zlen bs =? 0); [same|]. apply IH; assumption.
      - destruct b as [v1 r]. unfold bS in B. cbn [snd] in B. 
        destruct B as [(q & HK & ->)|(HF & ->)]; apply outcome_stop; auto using (@io_err unit), (@io_fuel unit).
    Qed.
    Lemma get_value_sim nt sh arg : sim bM (get_value fuel nt sh arg) (get_value fuel' nt sh arg).
    Proof.
      unfold get_value. destruct (split_colon arg) as [file stream]. apply sim_bind; [apply parse_file_arg_sim|intros x]. destruct x as [f|m]; [|apply sim_ret].
      apply sim_bind; [apply file_data_sim; exact Hfu|intros y]. destruct y as [i|]; [|apply sim_ret]. sims. apply attr_value_sim.
    Qed.
    Lemma get_sim nt sh arg : sim bP (get fuel nt sh arg) (get fuel' nt sh arg).
    Proof.
      intros d e Hd. unfold get. call (get_value_sim nt sh arg d e Hd).
      - destruct b as [[v|m]|x| |]; try same. call (get_loop_sim fuel fuel' v [] Hfu d0 e0 ltac:(assumption)); [destruct b; same|].
        destruct b as [bs r], c as [bs2 r2]. destruct B as (B1 & B2). cbn [fst snd] in *. apply outcome_stop; auto.
        destruct B1 as [(q & HK & ->)|(HF & ->)]; cbn [rbind]; auto using (@io_err (answer unit)), (@io_fuel (answer unit)).
      - destruct B as [(q & HK & ->)|(HF & ->)]; (apply outcome_stop; [assumption|auto using (@io_err (answer unit)), (@io_fuel (answer unit))|eexists; reflexivity]).
    Qed.
    Lemma run_lines_sim cs data p inner k : forall k' i s, fu k k' -> sim bP (run_lines k cs data p inner i s) (run_lines k' cs data p inner i s).
    Proof.
      induction k as [|k IH]; intros k' i s Hf.
      { destruct k' as [|k']; [apply sim_plift|]. intros d e Hd. cbn [run_lines]. unfold plift at 1. destruct Hf as [(HF & _)|E]; [|discriminate].
        apply outcome_stop; [exact (R_Q _ _ HF Hd)|apply io_fuel; exact HF|eexists; reflexivity]. }
      destruct (fu_S _ _ Hf) as (j & -> & Hj). cbn [run_lines]. destruct (druns_next cs data p s) as [s1 [x|]]; [|apply sim_pret].
      psims. apply IH. exact Hj.
    Qed.
    Lemma attr_print_sim nt runs inner n a : sim bP (attr_print fuel nt runs inner n a) (attr_print fuel' nt runs inner n a).
    Proof.
      unfold attr_print. psims. destruct runs; [|apply sim_pret]. psims; [apply attr_value_sim|]. match goal with |- context [match ?v with AVSimple _ => _ | AVList _ => _ end] => destruct v as [[x|x]|x] end; try apply sim_pret.
      apply run_lines_sim. exact Hfu.
    Qed.
    Lemma list_lines_sim nt runs self k : forall k' l, fu k k' -> sim bP (list_lines fuel k nt runs self l) (list_lines fuel' k' nt runs self l).
    Proof.
      induction k as [|k IH]; intros k' l Hf d e Hd.
      { cbn [list_lines]. destruct k' as [|k']; [same|]. destruct Hf as [(HF & _)|E]; [|discriminate].
        apply outcome_stop; [exact (R_Q _ _ HF Hd)|apply io_fuel; exact HF|eexists; reflexivity]. }
      destruct (fu_S _ _ Hf) as (j & -> & Hj). cbn [list_lines]. call (alist_next_sim l d e Hd).
      - destruct b as [l1 [x|]]; [|same].
        assert (Hs : sim bP (pdo e <- plift x;
           if le_number e =? self then list_lines fuel k nt runs self l1
           else pdo f <- pm (le_to_file nt e); pdo a <- plift (le_to_attribute e f); pdo _u <- attr_print fuel nt runs true (le_number e) a; list_lines fuel k nt runs self l1)
          (pdo e <- plift x;
           if le_number e =? self then list_lines fuel' j nt runs self l1
           else pdo f <- pm (le_to_file nt e); pdo a <- plift (le_to_attribute e f); pdo _u <- attr_print fuel' nt runs true (le_number e) a; list_lines fuel' j nt runs self l1)).
        { psims. destruct (_ =? _); [apply IH; exact Hj|]. psims; [apply ntfs_file_sim|apply attr_print_sim|apply IH; exact Hj]. }
        apply Hs. assumption.
      - destruct b as [l1 i]. destruct B as (r & E & B). cbn [snd] in E. subst i. unfold pbind, plift.
        destruct B as [(q & HK & ->)|(HF & ->)]; (apply outcome_stop; [assumption|auto using (@io_err unit), (@io_fuel unit)|eexists; reflexivity]).
    Qed.
    Lemma attr_loop_sim nt runs f k : forall k' s, fu k k' -> sim bP (attr_loop fuel k nt runs f s) (attr_loop fuel' k' nt runs f s).
    Proof.
      induction k as [|k IH]; intros k' s Hf.
      { destruct k' as [|k']; [apply sim_plift|]. intros d e Hd. cbn [attr_loop]. unfold plift at 1. destruct Hf as [(HF & _)|E]; [|discriminate].
        apply outcome_stop; [exact (R_Q _ _ HF Hd)|apply io_fuel; exact HF|eexists; reflexivity]. }
      destruct (fu_S _ _ Hf) as (j & -> & Hj). cbn [attr_loop]. destruct (raw_next f s) as [s1 [x|]]; [|apply sim_pret].
      psims; [apply attr_print_sim| |apply IH; exact Hj]. destruct (_ =? _); psims. apply list_lines_sim. exact Hfu.
    Qed.
    Lemma attr_sim nt sh runs arg : sim bP (attr fuel nt sh runs arg) (attr fuel' nt sh runs arg).
    Proof.
      unfold attr. psims; [apply parse_file_arg_sim|]. match goal with |- context [match ?v with Done _ => _ | Said _ => _ end] => destruct v as [f|m] end; [|apply sim_pret].
      unfold attr_file. psims. apply attr_loop_sim. exact Hfu.
    Qed.
    Lemma attribute_info_sim nt a : sim bP (attribute_info fuel nt a) (attribute_info fuel' nt a).
    Proof.
      unfold attribute_info. destruct (attr_ty a) as [ty|x| |]; try apply sim_pret; try apply sim_plift.
      destruct (ty =? TY_StandardInformation); [unfold standard_line; psims|]. destruct (ty =? TY_FileName); [unfold name_line; psims; apply attr_structured_sim; [exact Hfu|apply fn_new_sim]|].
      destruct (ty =? TY_Data); [unfold stream_line; psims|apply sim_pret].
    Qed.
    Lemma info_loop_sim nt k : forall k' st, fu k k' -> sim bP (info_loop fuel k nt st) (info_loop fuel' k' nt st).
    Proof.
      induction k as [|k IH]; intros k' st Hf d e Hd.
      { cbn [info_loop]. destruct k' as [|k']; [same|]. destruct Hf as [(HF & _)|E]; [|discriminate].
        apply outcome_stop; [exact (R_Q _ _ HF Hd)|apply io_fuel; exact HF|eexists; reflexivity]. }
      destruct (fu_S _ _ Hf) as (j & -> & Hj). cbn [info_loop]. call (attrs_next_sim nt fuel fuel' st Hfu d e Hd).
      - destruct b as [st1 [x|]]; [|same].
        assert (Hs : sim bP (pdo i <- plift x; pdo a <- plift (item_to_attribute i); pdo _u <- attribute_info fuel nt a; info_loop fuel k nt st1)
          (pdo i <- plift x; pdo a <- plift (item_to_attribute i); pdo _u <- attribute_info fuel' nt a; info_loop fuel' j nt st1)).
        { psims; [apply attribute_info_sim|apply IH; exact Hj]. }
        apply Hs. assumption.
      - destruct b as [l1 i]. destruct B as (r & E & B). cbn [snd] in E. subst i. unfold pbind, plift.
        destruct B as [(q & HK & ->)|(HF & ->)]; (apply outcome_stop; [assumption|auto using (@io_err unit), (@io_fuel unit)|eexists; reflexivity]).
    Qed.
    Lemma fileinfo_sim nt sh arg : sim bP (fileinfo fuel nt sh arg) (fileinfo fuel' nt sh arg).
    Proof.
      unfold fileinfo. psims; [apply parse_file_arg_sim|]. match goal with |- context [match ?v with Done _ => _ | Said _ => _ end] => destruct v as [f|m] end; [|apply sim_pret].
      unfold fileinfo_file, record_line. psims. apply info_loop_sim. exact Hfu.
    Qed.

    (** [fsinfo] takes an error that occurs while the name of the volume is read for the absence of a name. *)
    Definition bL (p q : list line * res unit) : Prop :=
      bP p q \/ exists l, p = (l ++ [LLabel None], Ok tt) /\ (snd q = Ok tt -> exists name, fst q = l ++ [LLabel name]).
    Lemma label_line_sim nt : sim bL (label_line nt) (label_line nt).
    Proof.
      intros d e Hd. unfold label_line. call (volume_name_sim nt d e Hd).
      - destruct b as [[n|x| |]|]; unfold print; same.
      - destruct B as (r & -> & B). destruct B as [(k & HK & ->)|(HF & ->)].
        + unfold print at 1. destruct c as [[n|x| |]|]; unfold print; right; (split; [assumption|]); right; exists []; (split; [reflexivity|]); cbn [fst snd app]; intros H; try discriminate; eauto.
        + destruct c as [[n|x| |]|]; unfold print; right; (split; [assumption|]); left; (split; [apply io_fuel; exact HF|]); eexists; reflexivity.
    Qed.
    Lemma bL_app l p q : bL p q -> bL (l ++ fst p, snd p) (l ++ fst q, snd q).
    Proof.
      intros [(H1 & t & H2)|(m & -> & H)].
      - left. split; [exact H1|]. exists t. cbn [fst]. rewrite H2. apply app_assoc.
      - right. exists (l ++ m). cbn [fst snd]. split; [now rewrite app_assoc|]. intros E. destruct (H E) as (name & ->). exists name. apply app_assoc.
    Qed.
    Lemma fsinfo_sim nt : sim bL (fsinfo nt) (fsinfo nt).
    Proof.
      intros d e Hd. unfold fsinfo, pbind, print, pm. call (volume_info_sim nt d e Hd).
      - destruct b as [v|x| |]; try same. call (label_line_sim nt d0 e0 ltac:(assumption)); [destruct b; same|]. destruct b as [l r], c as [l' r'].
        right. split; auto. exact (bL_app [_; _; _] (l, r) (l', r') B).
      - destruct B as [(k & HK & ->)|(HF & ->)].
        + destruct c as [v|x| |]; [destruct (label_line nt e0) as [? [? ?]]|..]; right; (split; [assumption|]); left; (split; [apply io_err; exact HK|]); cbn [fst app]; eexists; reflexivity.
        + destruct c as [v|x| |]; [destruct (label_line nt e0) as [? [? ?]]|..]; right; (split; [assumption|]); left; (split; [apply io_fuel; exact HF|]); cbn [fst app]; eexists; reflexivity.
    Qed.

    (** Without errors of the device, it does not. *)
    Lemma fsinfo_calm nt : (forall k, ~ K k) -> sim bP (fsinfo nt) (fsinfo nt).
    Proof.
      intros HK. unfold fsinfo. psims; [apply volume_info_sim|]. intros d e Hd. unfold label_line. call (volume_name_sim nt d e Hd); [destruct b as [[n|x| |]|]; unfold print; same|].
      destruct B as (r & -> & [(k & Hk & _)|(HF & ->)]); [destruct (HK k Hk)|]. apply outcome_stop; [assumption|apply io_fuel; exact HF|eexists; reflexivity].
    Qed.

    (** A command that fails leaves the shell as it is; what it has printed or written is a beginning of what it should have. *)
    Definition bC (sh : shell) (c : command) (p q : shell * reply) : Prop :=
      fst p = sh /\
      (io (re_outcome (snd p)) /\ (exists t, re_lines (snd q) = re_lines (snd p) ++ t) /\ (exists t, re_data (snd q) = re_data (snd p) ++ t) \/
       c = DoFsinfo /\ exists l, snd p = mkReply (l ++ [LLabel None]) [] (Ok (Done tt)) /\
         (re_outcome (snd q) = Ok (Done tt) -> exists name, re_lines (snd q) = l ++ [LLabel name])).
    Lemma prefix_refl {X} (l : list X) : exists t, l = l ++ t.
    Proof. exists []. now rewrite app_nil_r. Qed.
    Lemma prefix_nil {X} (l : list X) : exists t, l = [] ++ t.
    Proof. exists l. reflexivity. Qed.
    Lemma run_command_sim nt sh c : sim (bC sh c) (run_command fuel nt sh c) (run_command fuel' nt sh c).
    Proof.
      intros d e Hd. unfold run_command. destruct c as [arg| |arg|runs arg|arg| |arg| |word]; try same.
      - call (cd_sim nt sh arg d e Hd); [destruct b as [[x|m]|x| |]; same|].
        assert (G : forall d y r, Q d -> io r -> outcome (bC sh (DoCd arg)) (d, (sh, mkReply [] [] r)) y).
        { intros d1 [e1 y] r H1 H2. right. split; auto. split; auto. left. cbn [re_outcome re_lines re_data snd]. auto using prefix_nil. }
        destruct B as [(k & HK & ->)|(HF & ->)]; apply G; auto using (@io_err (answer unit)), (@io_fuel (answer unit)).
      - call (dir_sim nt sh d e Hd); [destruct b as [l r]; same|]. destruct b as [l r], c as [l' r']. destruct B as (B1 & B2). cbn [fst snd] in *.
        right. split; auto. split; auto. left. cbn [re_outcome re_lines re_data snd]. split; [|auto using prefix_nil].
        destruct B1 as [(k & HK & ->)|(HF & ->)]; cbn [rbind]; auto using (@io_err (answer unit)), (@io_fuel (answer unit)).
      - call (get_sim nt sh arg d e Hd); [destruct b as [l r]; same|]. destruct b as [l r], c as [l' r']. destruct B as (B1 & B2). cbn [fst snd] in *.
        right. split; auto. split; auto. left. cbn [re_outcome re_lines re_data snd]. auto using prefix_nil.
      - call (attr_sim nt sh runs arg d e Hd); [destruct b as [l r]; same|]. destruct b as [l r], c as [l' r']. destruct B as (B1 & B2). cbn [fst snd] in *.
        right. split; auto. split; auto. left. cbn [re_outcome re_lines re_data snd]. auto using prefix_nil.
      - call (fileinfo_sim nt sh arg d e Hd); [destruct b as [l r]; same|]. destruct b as [l r], c as [l' r']. destruct B as (B1 & B2). cbn [fst snd] in *.
        right. split; auto. split; auto. left. cbn [re_outcome re_lines re_data snd]. auto using prefix_nil.
      - call (fsinfo_sim nt d e Hd); [destruct b as [l r]; same|]. destruct b as [l r], c as [l' r']. right. split; auto. split; auto. destruct B as [(B1 & B2)|(m & E & H)].
        + left. cbn [re_outcome re_lines re_data fst snd] in *. split; [|auto using prefix_nil].
          destruct B1 as [(k & HK & ->)|(HF & ->)]; cbn [rbind]; auto using (@io_err (answer unit)), (@io_fuel (answer unit)).
        + right. injection E as -> ->. split; auto. exists m. cbn [rbind snd re_outcome re_lines fst] in *. split; auto. intros E. apply H. destruct r' as [[]|x| |]; try discriminate. reflexivity.
    Qed.
    Lemma run_command_calm nt sh c : (forall k, ~ K k) -> sim (fun p _ => io (re_outcome (snd p))) (run_command fuel nt sh c) (run_command fuel' nt sh c).
    Proof.
      intros HK d e Hd. assert (Hc : c = DoFsinfo \/ c <> DoFsinfo) by (destruct c; auto; right; discriminate). destruct Hc as [->|Hc].
      - unfold run_command. call (fsinfo_calm nt HK d e Hd); [destruct b; same|]. destruct b as [l r], c as [l' r']. destruct B as (B & _). right. split; auto. cbn [snd re_outcome] in *.
        destruct B as [(k & Hk & _)|(HF & ->)]; [destruct (HK k Hk)|apply io_fuel; exact HF].
      - call (run_command_sim nt sh c d e Hd); [same|]. right. split; auto. destruct B as (_ & [(B & _)|(B & _)]); [exact B|contradiction].
    Qed.
  End Shell.
End Sim.

(** ** With and without faults *)
Section Faults.
  Variable d0 : dev.
  Hypothesis no_int : ~ reports d0 Interrupted.
  Definition okd (d : dev) : Prop := d_img d = d_img d0 /\ forall k, reports d k -> reports d0 k.
  Definition calm (d e : dev) : Prop := e = without_faults d /\ okd d /\ faults d = faults d0.
  Definition hit (d : dev) : Prop := okd d /\ S (faults d) = faults d0.
  Lemma calm_same d e : calm d e -> length (d_reads e) = length (d_reads d).
  Proof. intros (-> & _). cbn. apply map_length. Qed.
  Lemma calm_reads d e : calm d e -> fu False (length (d_reads d)) (length (d_reads e)).
  Proof. intros (-> & _). right. cbn. now rewrite map_length. Qed.
  Lemma calm_seeks d e : calm d e -> fu False (length (d_seeks d)) (length (d_seeks e)).
  Proof. intros (-> & _). right. cbn. now rewrite map_length. Qed.
  Lemma calm_hit d e : False -> calm d e -> hit d.
  Proof. contradiction. Qed.
  Lemma calm_dev_seek n : sim calm hit (bM (reports d0) False) (dev_seek n) (dev_seek n).
  Proof.
    intros d e (-> & (Hi & Hk) & Hn). unfold outcome, calm, hit. set (n0 := faults d0) in *. clearbody n0. destruct d as [img p rs ss]. unfold reports, faults in *. unfold dev_seek, without_faults. cbn [d_seeks d_reads d_img d_pos] in *.
    destruct ss as [|[x|] t]; cbn [map].
    - left. split; auto. split; auto. split; auto. split; auto.
    - right. split; [|apply io_err; apply Hk; cbn; auto]. split; [split; auto|unfold faults; cbn in Hn |- *; lia]. intros k [H|H]; apply Hk; unfold reports in *; cbn in *; auto.
    - left. split; auto. split; auto. split; [split; auto|auto]. intros k [H|H]; apply Hk; unfold reports in *; cbn in *; auto.
  Qed.
  Lemma calm_dev_read n : sim calm hit (bM (reports d0) False) (dev_read n) (dev_read n).
  Proof.
    intros d e (-> & (Hi & Hk) & Hn). unfold outcome, calm, hit. set (n0 := faults d0) in *. clearbody n0. destruct d as [img p rs ss]. unfold reports, faults in *. unfold dev_read, without_faults. cbn [d_seeks d_reads d_img d_pos] in *.
    destruct rs as [|[j|x] t]; cbn [map calm_read].
    - left. split; auto. split; auto. split; auto. split; auto.
    - left. split; auto. split; auto. split; [split; auto|auto]. intros k [H|H]; apply Hk; unfold reports in *; cbn in *; auto.
    - right. split; [|apply io_err; apply Hk; cbn; auto]. split; [split; auto|unfold faults; cbn in Hn |- *; lia]. intros k [H|H]; apply Hk; unfold reports in *; cbn in *; auto.
  Qed.
  Lemma calm_at_read p n : sim calm hit (bM (reports d0) False) (do _u <- dev_seek p; dev_read_exact n) (do _u <- dev_seek p; dev_read_exact n).
  Proof. apply dev_at_read_sim; auto using calm_same, calm_dev_seek, calm_dev_read. Qed.
  Lemma calm_stream : stream_reads calm hit (reports d0) False.
  Proof. intros S0 o _ Ha k k' s n acc Hf. apply dev_stream_read_loop_sim; eauto using calm_dev_seek, calm_dev_read, calm_hit. Qed.
  Lemma calm_start : calm d0 (without_faults d0).
  Proof. split; auto. split; auto. split; auto. Qed.
  Lemma io_device {A} (r : res A) : io (reports d0) False r -> device_error d0 r.
  Proof. intros [(k & H)|([] & _)]. exists k. exact H. Qed.
  Lemma sim_honest {B} (bad : B -> B -> Prop) (failed : B -> Prop) call : sim calm hit bad call call -> (forall b b', bad b b' -> failed b) -> honest d0 failed call.
  Proof.
    intros H Hb. unfold honest. specialize (H d0 _ calm_start). destruct (call d0) as [d1 b], (call (without_faults d0)) as [e1 b'].
    destruct H as [((-> & (Hi & Hk) & Hn) & ->)|(((Hi & Hk) & Hn) & B0)]; split; auto; split; auto. right. eauto.
  Qed.
  Lemma sim_call {A} (m : M A) : sim calm hit (bM (reports d0) False) m m -> honest_call d0 m.
  Proof. intros H. apply (sim_honest _ _ _ H). intros b b'. apply io_device. Qed.
  Lemma sim_value {S A} (m : dev -> dev * (S * res A)) : sim calm hit (bS (reports d0) False) m m -> honest_value d0 m.
  Proof. intros H. apply (sim_honest _ _ _ H). intros b b'. apply io_device. Qed.
  Lemma sim_find {A} (m : dev -> dev * item A) : sim calm hit (bI (reports d0) False) m m -> honest_find d0 m.
  Proof. intros H. apply (sim_honest _ _ _ H). intros b b' (r & -> & Hr). exists r. split; auto. now apply io_device. Qed.
  Lemma sim_next {S A} (m : dev -> dev * (S * item A)) : sim calm hit (bSI (reports d0) False) m m -> honest_next d0 m.
  Proof. intros H. apply (sim_honest _ _ _ H). intros b b' (r & E & Hr). exists r. split; auto. now apply io_device. Qed.
  Lemma fu_refl F k : fu F k k.
  Proof. right. reflexivity. Qed.
End Faults.
#[export] Hint Resolve calm_reads calm_seeks calm_hit calm_at_read calm_stream fu_refl : calm.

Section Honest.
  Variable d : dev.
  Hypothesis no_int : ~ reports d Interrupted.
  Lemma ntfs_new_honest : honest_call d ntfs_new.
  Proof. apply sim_call. eapply ntfs_new_sim; eauto with calm. Qed.
  Lemma read_upcase_table_honest fuel nt : honest_call d (read_upcase_table fuel nt).
  Proof. apply sim_call. eapply read_upcase_table_sim; eauto with calm. Qed.
  Lemma ntfs_file_honest nt n : honest_call d (ntfs_file nt n).
  Proof. apply sim_call. eapply ntfs_file_sim; eauto with calm. Qed.
  Lemma attrs_next_honest fuel nt st : honest_next d (attrs_next fuel nt st).
  Proof. apply sim_next. eapply attrs_next_sim; eauto with calm. Qed.
  Lemma file_data_honest fuel nt f name : honest_call d (file_data fuel nt f name).
  Proof. apply sim_call. eapply file_data_sim; eauto with calm. Qed.
  Lemma file_name_of_honest fuel nt f ns parent : honest_call d (file_name_of fuel nt f ns parent).
  Proof. apply sim_call. eapply file_name_of_sim; eauto with calm. Qed.
  Lemma attr_value_honest nt a : honest_call d (attr_value nt a).
  Proof. apply sim_call. eapply attr_value_sim; eauto with calm. Qed.
  Lemma av_read_honest fuel v n : honest_value d (av_read fuel v n).
  Proof. apply sim_value. eapply av_read_sim; eauto with calm. Qed.
  Lemma av_read_exact_honest fuel v n : honest_value d (rs_read_exact (av_read fuel) v n).
  Proof. apply sim_value. eapply rs_read_exact_sim; eauto with calm. intros. eapply av_read_sim; eauto with calm. Qed.
  Lemma av_seek_honest fuel v p : honest_value d (av_seek fuel v p).
  Proof. apply sim_value. eapply av_seek_sim; eauto with calm. Qed.
  Lemma directory_index_honest fuel nt f : honest_call d (directory_index fuel nt f).
  Proof. apply sim_call. eapply directory_index_sim; eauto with calm. Qed.
  Lemma alist_next_honest l : honest_next d (alist_next l).
  Proof. apply sim_next. eapply alist_next_sim; eauto with calm. Qed.
  Lemma entries_next_honest fuel nt ix st : honest_next d (entries_next fuel nt ix st).
  Proof. apply sim_next. eapply entries_next_sim; eauto with calm. Qed.
  Lemma index_find_honest {X} (kp : list Z -> position -> res X) cmp fuel nt ix : honest_find d (index_find kp cmp fuel nt ix).
  Proof. apply sim_find. eapply index_find_sim; eauto with calm. Qed.
  Lemma file_name_find_honest fuel nt ix name : honest_find d (file_name_find fuel nt ix name).
  Proof. apply sim_find. eapply file_name_find_sim; eauto with calm. Qed.
  Lemma ie_to_file_honest nt x : honest_call d (ie_to_file nt x).
  Proof. apply sim_call. eapply ie_to_file_sim; eauto with calm. Qed.
  Lemma structured_honest {A} fuel nt (new : (Z -> RM aval (list Z)) -> position -> Z -> RM aval A) ty a :
    parser (calm d) (hit d) (reports d) False new -> honest_call d (attr_structured fuel nt new ty a).
  Proof. intros H. apply sim_call. eapply attr_structured_sim; eauto with calm. Qed.
  Lemma fn_honest fuel nt ty a : honest_call d (attr_structured fuel nt fn_new ty a).
  Proof. apply structured_honest. apply fn_new_sim. Qed.
  Lemma si_honest fuel nt ty a : honest_call d (attr_structured fuel nt si_new ty a).
  Proof. apply structured_honest. apply si_new_sim. Qed.
  Lemma oi_honest fuel nt ty a : honest_call d (attr_structured fuel nt oi_new ty a).
  Proof. apply structured_honest. apply oi_new_sim. Qed.
  Lemma volume_info_honest nt : honest_call d (volume_info nt).
  Proof. apply sim_call. eapply volume_info_sim; eauto with calm. Qed.
  Lemma volume_name_honest nt : honest_find d (volume_name nt).
  Proof. apply sim_find. eapply volume_name_sim; eauto with calm. Qed.
  Lemma shell_open_honest fuel : honest_call d (shell_open fuel).
  Proof. apply sim_call. eapply shell_open_sim; eauto with calm. Qed.
End Honest.
