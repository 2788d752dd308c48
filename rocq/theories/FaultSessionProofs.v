(** * Proofs for C60: sessions on a device with faults. *)
From Coq Require Import Lia.
From Verif Require Import Base Dev Types Record DataRuns Stream NonResident Resident BootSector Attribute File Structured AttrList Upcase Index Time Volume Shell
  SpecVolume SpecFaults BaseProofs DevProofs ReaderProofs StreamProofs ShellProofs ShellVolumeProofs ShellSessionProofs FaultProofs.
From Verif Require Export FuelProofs.

(** ** Sessions *)
Lemma without_faultless d : faultless (without_faults d).
Proof.
  split; cbn.
  - apply Forall_map. apply Forall_forall. intros [k|k] _; exact Logic.I.
  - apply Forall_map. apply Forall_forall. reflexivity.
Qed.
Lemma command_honest d fuel nt sh c : ~ reports d Interrupted ->
  let '(d1, (sh1, r)) := run_command fuel nt sh c d in let '(e1, (sh2, due)) := run_command fuel nt sh c (without_faults d) in
  d_img d1 = d_img d /\ (forall k, reports d1 k -> reports d k) /\
  (r = due /\ sh1 = sh2 /\ e1 = without_faults d1 /\ faults d1 = faults d \/
   sh1 = sh /\ (harmed d due r \/ c = DoFsinfo /\ nameless due r) /\ S (faults d1) = faults d).
Proof.
  intros Hn. assert (H : sim (calm d) (hit d) (bC (reports d) False sh c) (run_command fuel nt sh c) (run_command fuel nt sh c)) by (eapply run_command_sim; eauto with calm).
  specialize (H d _ (calm_start d)). destruct (run_command fuel nt sh c d) as [d1 [sh1 r]], (run_command fuel nt sh c (without_faults d)) as [e1 [sh2 due]].
  destruct H as [((-> & (Hi & Hk) & Hf) & E)|(((Hi & Hk) & Hf) & (Hs & B))]; split; auto; split; auto.
  - injection E as -> ->. left. auto.
  - right. cbn [fst snd] in *. split; auto. split; auto. destruct B as [(B1 & B2 & B3)|B]; [left|right; exact B]. split; [|split; auto]. now apply io_device.
Qed.

Lemma harmed_outcome d due r : harmed d due r -> exists k, reports d k /\ re_outcome r = Err (EIo k).
Proof. intros (H & _). exact H. Qed.
Lemma harmed_more d d' due r : (forall k, reports d' k -> reports d k) -> harmed d' due r -> harmed d due r.
Proof. intros H ((k & Hk & E) & B). split; auto. exists k. auto. Qed.
Lemma answers_done img v p c r p' : answers img v p c r p' -> exists a, re_outcome r = Ok a.
Proof. intros H. destruct H; cbn; eauto. Qed.
Lemma answers_fsinfo img v p r p' : answers img v p DoFsinfo r p' -> p' = p.
Proof. intros H. inversion H. reflexivity. Qed.

Section Sessions.
  Context (img : list Z) (v : volume) (nt : ntfs) (sh0 : shell) (Hr : ready img v nt sh0) (D : dev) (no_int : ~ reports D Interrupted).
  Lemma commands_harmed cs : Forall (command_ok img v) cs -> forall p sh d, on_path img v p sh -> d_img d = img -> (forall k, reports d k -> reports D k) ->
    exists N l n, harmed_history img v D p cs l n /\ (n <= faults d)%nat /\ forall fuel, (N <= fuel)%nat -> run_commands fuel nt sh cs d = l.
  Proof.
    induction 1 as [|c cs Hc _ IH]; intros p sh d Hp Hi Hk.
    - exists 0%nat, [], 0%nat. split; [constructor|]. split; [lia|reflexivity].
    - assert (Hg : good img true (without_faults d)) by (split; [exact Hi|intros _; apply without_faultless]).
      destruct (rd_step _ _ _ _ Hr c Hc p sh (without_faults d) Hp Hg) as (N1 & e' & sh' & due & p' & Hg' & Hp' & Ha & Hrun). specialize (Hrun N1 (le_n N1)).
      assert (Hn : ~ reports d Interrupted) by (intros H; apply no_int, Hk, H).
      pose proof (command_honest d N1 nt sh c Hn) as H. pose proof (fun fuel Hle => run_command_fuel N1 fuel Hle nt sh c d) as Hfuel. rewrite Hrun in H.
      destruct (run_command N1 nt sh c d) as [d1 [sh1 r]]. cbn [snd] in Hfuel. destruct (answers_done _ _ _ _ _ _ Ha) as (a & Hout).
      destruct H as (Hi1 & Hk1 & [(-> & -> & _ & Hf)|(-> & Hbad & Hf)]).
      + destruct (IH p' sh' d1 Hp') as (N2 & l & n & Hh & Hc2 & Hl); [congruence|auto|]. exists (N1 + N2)%nat, ((due, prompt p') :: l), n.
        split; [econstructor; eauto|]. split; [lia|]. intros fuel Hfu. cbn [run_commands]. rewrite Hfuel by (lia || congruence). rewrite Hout.
        destruct Hp' as (-> & _). f_equal. apply Hl. lia.
      + destruct (IH p sh d1 Hp) as (N2 & l & n & Hh & Hc2 & Hl); [congruence|auto|].
        assert (Hcont : exists x, re_outcome r = Ok x \/ exists k, re_outcome r = Err k).
        { destruct Hbad as [Hbad|(_ & l0 & -> & _)]; [destruct (harmed_outcome _ _ _ Hbad) as (k & _ & ->)|cbn]; exists (Done tt); eauto. }
        exists (N1 + N2)%nat, ((r, prompt p) :: l), (S n). split.
        { destruct Hbad as [Hbad|(-> & Hbad)]; [eapply hh_harmed; eauto; eapply harmed_more; eauto|]. pose proof (answers_fsinfo _ _ _ _ _ Ha) as ->. eapply hh_nameless; eauto. }
        split; [lia|]. intros fuel Hfu. cbn [run_commands]. destruct Hcont as (x & [E|(y & E)]); rewrite Hfuel by (lia || congruence); rewrite E; destruct Hp as (-> & _); f_equal; apply Hl; lia.
  Qed.
End Sessions.

Lemma session_harmed img v cs d : stored_volume img v -> closed v -> plain_names v -> d_img d = img -> ~ reports d Interrupted -> Forall (command_ok img v) cs ->
  exists N, (exists k, reports d k /\ forall fuel, (N <= fuel)%nat -> session fuel cs d = Err (EIo k)) \/
    exists replies n, harmed_history img v d [] cs replies n /\ (n <= faults d)%nat /\ forall fuel, (N <= fuel)%nat -> session fuel cs d = Ok replies.
Proof.
  intros SV Hcl Hpn Hi Hint Hcs. destruct (shell_open_ok img v (without_faults d) SV Hcl Hpn (without_faultless d) Hi) as (N1 & nt & sh & e1 & Hg & Hr & E).
  specialize (E N1 (le_n N1)). pose proof (shell_open_honest d Hint N1) as H. pose proof (fun fuel Hle => shell_open_fuel N1 fuel Hle d) as Hfuel.
  unfold honest_call, honest in H. rewrite E in H. destruct (shell_open N1 d) as [d1 r]. cbn [snd] in Hfuel. destruct H as (Hi1 & Hk & [(-> & _ & Hf)|((k & HK & ->) & Hf)]).
  - destruct (commands_harmed img v nt sh Hr d Hint cs Hcs [] sh d1 (rd_path _ _ _ _ Hr)) as (N2 & l & n & Hh & Hle & Hl); [congruence|auto|].
    exists (N1 + N2)%nat. right. exists l, n. split; auto. split; [lia|]. intros fuel Hfu. unfold session. rewrite Hfuel by (lia || discriminate). f_equal. apply Hl. lia.
  - exists N1. left. exists k. split; auto. intros fuel Hfu. unfold session. rewrite Hfuel by (lia || discriminate). reflexivity.
Qed.
