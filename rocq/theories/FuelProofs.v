(** * Proofs for C60: more fuel changes nothing. *)
From Coq Require Import Lia.
From Verif Require Import Base Dev Types Record DataRuns Stream NonResident Resident BootSector Attribute File Structured AttrList Upcase Index Time Volume Shell
  SpecFaults BaseProofs DevProofs ReaderProofs StreamProofs FaultProofs.

Definition anyd (d : dev) : Prop := True.
Definition nok (k : iokind) : Prop := False.
Lemma eq_same (d e : dev) : d = e -> length (d_reads e) = length (d_reads d).
Proof. now intros ->. Qed.
Lemma eq_reads (d e : dev) : d = e -> fu True (length (d_reads d)) (length (d_reads e)).
Proof. intros ->. apply fu_refl. Qed.
Lemma eq_seeks (d e : dev) : d = e -> fu True (length (d_seeks d)) (length (d_seeks e)).
Proof. intros ->. apply fu_refl. Qed.
Lemma eq_any (d e : dev) : True -> d = e -> anyd d.
Proof. intros _ _. exact Logic.I. Qed.
Lemma eq_sim {B} bad (m : dev -> dev * B) : sim eq anyd bad m m.
Proof. intros d e <-. destruct (m d) as [d1 b]. left. auto. Qed.
Lemma eq_stream K : stream_reads eq anyd K True.
Proof. intros S0 o _ Ha k k' s n acc Hf. apply dev_stream_read_loop_sim; eauto using eq_sim, eq_any. Qed.
Lemma fu_le k k' : (k <= k')%nat -> fu True k k'.
Proof. left. auto. Qed.
Lemma nok_int : ~ nok Interrupted.
Proof. intros []. Qed.
#[export] Hint Resolve eq_reads eq_seeks eq_any eq_sim eq_stream fu_le nok_int : fuel.

Lemma fuel_outcome {B} (bad : B -> B -> Prop) (x y : dev * B) : outcome eq anyd bad x y -> ~ bad (snd x) (snd y) -> y = x.
Proof. destruct x as [d b], y as [e c]. intros [(-> & ->)|(_ & H)] Hn; [reflexivity|contradiction]. Qed.
Lemma no_io {A} (r : res A) : r <> OutOfFuel -> ~ io nok True r.
Proof. intros H [(k & [] & _)|(_ & E)]. contradiction. Qed.

Section Fuel.
  Variables fuel fuel' : nat.
  Hypothesis Hle : (fuel <= fuel')%nat.
  Lemma av_read_fuel v n d : snd (snd (av_read fuel v n d)) <> OutOfFuel -> av_read fuel' v n d = av_read fuel v n d.
  Proof. intros H. eapply fuel_outcome; [eapply av_read_sim; eauto with fuel|]. now apply no_io. Qed.
  Lemma av_seek_fuel v p d : snd (snd (av_seek fuel v p d)) <> OutOfFuel -> av_seek fuel' v p d = av_seek fuel v p d.
  Proof. intros H. eapply fuel_outcome; [eapply av_seek_sim; eauto with fuel|]. now apply no_io. Qed.
  Lemma attrs_next_fuel nt st d : snd (snd (attrs_next fuel nt st d)) <> Some OutOfFuel -> attrs_next fuel' nt st d = attrs_next fuel nt st d.
  Proof. intros H. eapply fuel_outcome; [eapply attrs_next_sim; eauto with fuel|]. intros (r & E & Hr). apply no_io in Hr; auto. congruence. Qed.
  Lemma file_data_fuel nt f name d : snd (file_data fuel nt f name d) <> OutOfFuel -> file_data fuel' nt f name d = file_data fuel nt f name d.
  Proof. intros H. eapply fuel_outcome; [eapply file_data_sim; eauto with fuel|]. now apply no_io. Qed.
  Lemma file_name_of_fuel nt f ns parent d : snd (file_name_of fuel nt f ns parent d) <> OutOfFuel -> file_name_of fuel' nt f ns parent d = file_name_of fuel nt f ns parent d.
  Proof. intros H. eapply fuel_outcome; [eapply file_name_of_sim; eauto with fuel|]. now apply no_io. Qed.
  Lemma read_upcase_table_fuel nt d : snd (read_upcase_table fuel nt d) <> OutOfFuel -> read_upcase_table fuel' nt d = read_upcase_table fuel nt d.
  Proof. intros H. eapply fuel_outcome; [eapply read_upcase_table_sim; eauto with fuel|]. now apply no_io. Qed.
  Lemma directory_index_fuel nt f d : snd (directory_index fuel nt f d) <> OutOfFuel -> directory_index fuel' nt f d = directory_index fuel nt f d.
  Proof. intros H. eapply fuel_outcome; [eapply directory_index_sim; eauto with fuel|]. now apply no_io. Qed.
  Lemma entries_next_fuel nt ix st d : snd (snd (entries_next fuel nt ix st d)) <> Some OutOfFuel -> entries_next fuel' nt ix st d = entries_next fuel nt ix st d.
  Proof. intros H. eapply fuel_outcome; [eapply entries_next_sim; eauto with fuel|]. intros (r & E & Hr). apply no_io in Hr; auto. congruence. Qed.
  Lemma index_find_fuel {X} (kp : list Z -> position -> res X) cmp nt ix d : snd (index_find kp cmp fuel nt ix d) <> Some OutOfFuel ->
    index_find kp cmp fuel' nt ix d = index_find kp cmp fuel nt ix d.
  Proof. intros H. eapply fuel_outcome; [eapply index_find_sim; eauto with fuel|]. intros (r & E & Hr). apply no_io in Hr; auto. congruence. Qed.
  Lemma shell_open_fuel d : snd (shell_open fuel d) <> OutOfFuel -> shell_open fuel' d = shell_open fuel d.
  Proof. intros H. eapply fuel_outcome; [eapply shell_open_sim; eauto with fuel|]. now apply no_io. Qed.
  Lemma run_command_fuel nt sh c d : re_outcome (snd (snd (run_command fuel nt sh c d))) <> OutOfFuel -> run_command fuel' nt sh c d = run_command fuel nt sh c d.
  Proof.
    intros H. assert (Hc : c = DoFsinfo \/ c <> DoFsinfo) by (destruct c; auto; right; discriminate). destruct Hc as [->|Hc]; [reflexivity|].
    eapply fuel_outcome; [eapply run_command_sim; eauto with fuel|]. intros (_ & [(Hr & _)|(E & _)]); [|contradiction]. now apply no_io in Hr.
  Qed.
  Lemma run_commands_fuel nt cs : forall sh d, Forall (fun r => re_outcome (fst r) <> OutOfFuel) (run_commands fuel nt sh cs d) ->
    run_commands fuel' nt sh cs d = run_commands fuel nt sh cs d.
  Proof.
    induction cs as [|c cs IH]; intros sh d H; [reflexivity|]. cbn [run_commands] in *. pose proof (run_command_fuel nt sh c d) as E.
    destruct (run_command fuel nt sh c d) as [d1 [sh1 r]]. cbn [snd] in E. apply Forall_cons_iff in H. destruct H as (H1 & H2). cbn [fst] in H1. rewrite (E H1).
    f_equal. destruct (re_outcome r); auto.
  Qed.
  Lemma session_fuel cs d l : session fuel cs d = Ok l -> Forall (fun r => re_outcome (fst r) <> OutOfFuel) l -> session fuel' cs d = Ok l.
  Proof.
    unfold session. intros H1 H2. pose proof (shell_open_fuel d) as E. destruct (shell_open fuel d) as [d1 [[nt sh]|x| |]]; try discriminate.
    rewrite E by discriminate. injection H1 as <-. f_equal. now apply run_commands_fuel.
  Qed.
End Fuel.
