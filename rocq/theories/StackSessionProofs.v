(** * Proofs for C75: sessions on stored volumes, through the stack of readers. *)
From Coq Require Import Lia.
From Verif Require Import Base Dev Types Record DataRuns Stream NonResident Resident BootSector Attribute File Structured AttrList Upcase Index Time Volume Shell SectorReader BufReader
  Spec SpecMisc SpecVolume SpecFaults SpecStack BaseProofs DevProofs ReaderProofs StreamProofs ShellProofs ShellVolumeProofs ShellSessionProofs StackProofs FaultProofs FaultSessionProofs
  ReaderUseProofs ReaderProgProofs SessionProgProofs.

(** Without errors the outcome depends on the bytes only. *)
Definition still (img : list Z) (d : dev) : Prop := d_img d = img /\ d_reads d = [] /\ Forall seek_ok (d_seeks d).
Lemma still_quiet img d : zlen img < I64_MAX -> still img d -> quiet d.
Proof.
  intros Hl (H1 & H2 & H3). split; [exact H2|]. split; [|rewrite H1; exact Hl]. intros H. rewrite Forall_forall in H3. specialize (H3 _ H). discriminate.
Qed.
Lemma still_prog {X} img (pr : prog X) : zlen img < I64_MAX -> forall d e, still img d -> still img e -> snd (on_device pr d) = snd (on_device pr e).
Proof.
  intros Hl. induction pr as [x|p n ex next IH]; intros d e Hd He; cbn [on_device]; [reflexivity|].
  assert (G : forall d, still img d -> still img (fst (device_access p n ex d)) /\ snd (device_access p n ex d) = answer_of p n ex img).
  { intros d0 H0. destruct (quiet_access p n ex d0 (still_quiet _ _ Hl H0)) as ((A1 & A2 & A3) & B). destruct H0 as (S1 & S2 & S3). unfold dev_seek in *.
    destruct (d_seeks d0) as [|[k|] t]; [..|]; cbn [fst snd d_img d_reads d_seeks] in *.
    - split; [|rewrite B, S1; reflexivity]. split; [congruence|]. split; [congruence|]. rewrite A3. constructor.
    - inversion S3 as [|? ? K]. discriminate K.
    - split; [|rewrite B, S1; reflexivity]. split; [congruence|]. split; [congruence|]. rewrite A3. inversion S3. assumption. }
  destruct (G d Hd) as (D1 & D2), (G e He) as (E1 & E2). destruct (device_access p n ex d) as [d1 r], (device_access p n ex e) as [e1 r']. cbn [fst snd] in *. subst r r'. apply IH; assumption.
Qed.
Lemma still_same {X} img (m : dev -> dev * X) : isp m -> zlen img < I64_MAX -> forall d e, still img d -> still img e -> snd (m d) = snd (m e).
Proof.
  intros [pr (_ & H)] Hl d e Hd He. destruct (H d d (still_quiet _ _ Hl Hd) (near_refl d)) as (_ & _ & <-). destruct (H e e (still_quiet _ _ Hl He) (near_refl e)) as (_ & _ & <-).
  apply (still_prog img); assumption.
Qed.
Lemma isp_quiet {X} (m : dev -> dev * X) d : isp m -> quiet d -> quiet (fst (m d)).
Proof. intros [pr (_ & H)] Hd. destruct (H d d Hd (near_refl d)) as (A & B & _). exact (near_quiet _ _ B A). Qed.
Lemma without_still img d : quiet d -> d_img d = img -> still img (without_faults d).
Proof.
  intros (H1 & _) Hi. split; [exact Hi|]. split; [cbn; rewrite H1; reflexivity|]. exact (proj2 (without_faultless d)).
Qed.
Lemma no_interruption d : quiet d -> ~ reports d Interrupted.
Proof. intros (H1 & H2 & _) [H|H]; [rewrite H1 in H; exact H|exact (H2 H)]. Qed.
Lemma plain_still img : still img (plain_device img).
Proof. split; [reflexivity|]. split; [reflexivity|constructor]. Qed.
Lemma plain_good img : good img true (plain_device img).
Proof. split; [reflexivity|]. intros _. split; constructor. Qed.

Section Sessions.
  Context (img : list Z) (v : volume) (nt : ntfs) (sh0 : shell) (Hr : ready img v nt sh0) (Hlen : zlen img < I64_MAX).
  Lemma commands_uniform cs : Forall (command_ok img v) cs -> forall p sh, on_path img v p sh ->
    exists N, forall fuel D d, (N <= fuel)%nat -> quiet d -> d_img d = img -> (forall k, reports d k -> reports D k) ->
      exists n, harmed_history img v D p cs (run_commands fuel nt sh cs d) n /\ (n <= faults d)%nat.
  Proof.
    induction 1 as [|c cs Hc _ IH]; intros p sh Hp.
    - exists 0%nat. intros fuel D d _ _ _ _. exists 0%nat. split; [constructor|lia].
    - destruct (rd_step _ _ _ _ Hr c Hc p sh _ Hp (plain_good img)) as (N1 & e' & sh' & due & p' & _ & Hp' & Ha & Hrun).
      destruct (IH p sh Hp) as (N2 & H2). destruct (IH p' sh' Hp') as (N3 & H3). exists (N1 + N2 + N3)%nat. intros fuel D d Hfu Hd Hi Hk.
      pose proof (no_interruption d Hd) as Hn. pose proof (command_honest d fuel nt sh c Hn) as H.
      pose proof (still_same img _ (isp_command fuel nt sh c) Hlen _ _ (without_still img d Hd Hi) (plain_still img)) as Hs. rewrite (Hrun fuel) in Hs by lia.
      pose proof (isp_quiet _ d (isp_command fuel nt sh c) Hd) as Hd1. cbn [run_commands].
      destruct (run_command fuel nt sh c (without_faults d)) as [e1 [sh2 due']]. cbn [snd] in Hs. injection Hs as -> ->.
      destruct (run_command fuel nt sh c d) as [d1 [sh1 r]]. cbn [fst] in Hd1. destruct (answers_done _ _ _ _ _ _ Ha) as (a & Hout).
      destruct H as (Hi1 & Hk1 & [(-> & -> & _ & Hf)|(-> & Hbad & Hf)]).
      + destruct (H3 fuel D d1) as (n & Hh & Hle); [lia|exact Hd1|congruence|auto|]. exists n. rewrite Hout. rewrite (proj1 Hp'). split; [econstructor; eauto|lia].
      + destruct (H2 fuel D d1) as (n & Hh & Hle); [lia|exact Hd1|congruence|auto|]. exists (S n). split; [|lia]. rewrite (proj1 Hp).
        assert (Hgo : match re_outcome r with Panic | OutOfFuel => [] | _ => run_commands fuel nt sh cs d1 end = run_commands fuel nt sh cs d1).
        { destruct Hbad as [Hbad|(_ & l0 & -> & _)]; [destruct (harmed_outcome _ _ _ Hbad) as (k & _ & ->)|cbn]; reflexivity. }
        rewrite Hgo. destruct Hbad as [Hbad|(-> & Hbad)]; [eapply hh_harmed; eauto; eapply harmed_more; eauto|]. pose proof (answers_fsinfo _ _ _ _ _ Ha) as ->. eapply hh_nameless; eauto.
  Qed.
End Sessions.
Lemma session_uniform img v cs : stored_volume img v -> closed v -> plain_names v -> zlen img < I64_MAX -> Forall (command_ok img v) cs ->
  exists N, forall fuel d, (N <= fuel)%nat -> quiet d -> d_img d = img ->
    (exists k, reports d k /\ session fuel cs d = Err (EIo k)) \/
    exists replies n, session fuel cs d = Ok replies /\ harmed_history img v d [] cs replies n /\ (n <= faults d)%nat.
Proof.
  intros SV Hcl Hpn Hl Hcs. destruct (shell_open_ok img v (plain_device img) SV Hcl Hpn) as (N1 & nt & sh & e1 & _ & Hr & E); [split; constructor|reflexivity|].
  destruct (commands_uniform img v nt sh Hr Hl cs Hcs [] sh (rd_path _ _ _ _ Hr)) as (N2 & H2). exists (N1 + N2)%nat. intros fuel d Hfu Hd Hi.
  pose proof (shell_open_honest d (no_interruption d Hd) fuel) as H. unfold honest_call, honest in H.
  pose proof (still_same img _ (isp_open fuel) Hl _ _ (without_still img d Hd Hi) (plain_still img)) as Hs. rewrite (E fuel) in Hs by lia.
  pose proof (isp_quiet _ d (isp_open fuel) Hd) as Hd1. unfold session.
  destruct (shell_open fuel (without_faults d)) as [e2 due]. cbn [snd] in Hs. subst due. destruct (shell_open fuel d) as [d1 r]. cbn [fst] in Hd1.
  destruct H as (Hi1 & Hk & [(-> & _ & Hf)|((k & HK & ->) & Hf)]).
  - right. destruct (H2 fuel d d1) as (n & Hh & Hle); [lia|exact Hd1|congruence|auto|]. eexists. exists n. split; [reflexivity|]. split; [exact Hh|lia].
  - left. exists k. auto.
Qed.
Lemma stored_right img v cs : stored_volume img v -> closed v -> plain_names v -> zlen img < I64_MAX -> Forall (command_ok img v) cs ->
  exists N, forall fuel, (N <= fuel)%nat -> exists pr, performs pr (session fuel cs) /\
    forall sector cap b d, 0 < sector <= 2 ^ 62 -> 0 < cap <= I64_MAX -> sr_sector (bf_inner b) = sector -> d_img d = img -> ~ reports d Interrupted ->
    (exists errors, (forall k, In (Some k) errors -> reports d k \/ k = UnexpectedEof) /\
      ((exists k, In (Some k) errors /\ on_shell_reader cap pr b d = Err (EIo k)) \/
       exists replies n, on_shell_reader cap pr b d = Ok replies /\ harmed_history img v (failing_device img errors) [] cs replies n /\ (n <= faults (failing_device img errors))%nat)) /\
    (faultless d -> keeps_away sector cap img pr -> exists replies, on_shell_reader cap pr b d = Ok replies /\ history img v [] cs replies).
Proof.
  intros SV Hcl Hpn Hl Hcs. destruct (session_uniform img v cs SV Hcl Hpn Hl Hcs) as (N & H).
  destruct (shell_open_ok img v (plain_device img) SV Hcl Hpn) as (N1 & nt & sh & e1 & Hg & Hr & E1); [split; constructor|reflexivity|].
  destruct (rd_commands _ _ _ _ Hr cs Hcs [] sh e1 (rd_path _ _ _ _ Hr) Hg) as (N2 & l & Hh2 & E2).
  exists (N + N1 + N2)%nat. intros fuel Hfu. destruct (session_right fuel cs) as (pr & Hp & Hst). exists pr. split; [exact Hp|].
  intros sector cap b d Hs Hc Hb Hi Hn. destruct (Hst sector cap b d Hs Hc Hb ltac:(rewrite Hi; exact Hl) Hn) as ((errors & He & E) & Hcalm). rewrite Hi in E, Hcalm. split.
  - exists errors. split; [exact He|]. rewrite E.
    assert (Q : quiet (failing_device img errors)).
    { split; [reflexivity|]. split; [|exact Hl]. intros K. destruct (He _ K) as [K1|K1]; [exact (Hn K1)|discriminate]. }
    destruct (H fuel _ ltac:(lia) Q eq_refl) as [(k & Hk & E3)|(replies & n & E3 & Hh & Hle)].
    + left. exists k. split; [|exact E3]. destruct Hk as [[]|Hk]. exact Hk.
    + right. exists replies, n. auto.
  - intros Hf Hk. exists l. split; [|exact Hh2]. rewrite (Hcalm Hf Hk). unfold session. rewrite (E1 fuel) by lia. rewrite (E2 fuel) by lia. reflexivity.
Qed.
