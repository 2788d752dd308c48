(** * Whatever is done, a device without faults keeps its content and stays without faults. *)
From Coq Require Import Lia.
From Verif Require Import Base Dev Types Record DataRuns Stream NonResident Resident BootSector Attribute File Structured AttrList Upcase Index Time Volume Shell
  SpecFaults BaseProofs DevProofs ReaderProofs StreamProofs ValueProofs EvolveProofs AttrListValueProofs FaultProofs FuelProofs.

Section Good.
  Variable img : list Z.
  Notation gd := (good img true).
  Definition rg (d e : dev) : Prop := d = e /\ gd d.
  Lemma rg_same d e : rg d e -> length (d_reads e) = length (d_reads d).
  Proof. intros (-> & _). reflexivity. Qed.
  Lemma rg_reads d e : rg d e -> fu False (length (d_reads d)) (length (d_reads e)).
  Proof. intros (-> & _). apply fu_refl. Qed.
  Lemma rg_seeks d e : rg d e -> fu False (length (d_seeks d)) (length (d_seeks e)).
  Proof. intros (-> & _). apply fu_refl. Qed.
  Lemma rg_any d e : False -> rg d e -> anyd d.
  Proof. intros []. Qed.
  Lemma rg_seek n : sim rg anyd (bM nok False) (dev_seek n) (dev_seek n).
  Proof.
    intros d e (<- & Hg). pose proof (dev_seek_evolves n d) as Ev. destruct (dev_seek n d) as [d1 b]. left. split; auto. split; auto. eapply good_evolves; eauto.
  Qed.
  Lemma rg_read n : sim rg anyd (bM nok False) (dev_read n) (dev_read n).
  Proof.
    intros d e (<- & Hg). pose proof (dev_read_evolves n d) as Ev. destruct (dev_read n d) as [d1 b]. left. split; auto. split; auto. eapply good_evolves; eauto.
  Qed.
  Lemma rg_at p n : sim rg anyd (bM nok False) (do _u <- dev_seek p; dev_read_exact n) (do _u <- dev_seek p; dev_read_exact n).
  Proof. apply dev_at_read_sim; eauto using rg_any, rg_same, rg_seek, rg_read, nok_int. Qed.
  Lemma rg_stream : stream_reads rg anyd nok False.
  Proof. intros S0 o _ Ha k k' s n acc Hf. apply dev_stream_read_loop_sim; eauto using rg_any, rg_seek, rg_read. Qed.
  Hint Resolve rg_reads rg_seeks rg_any rg_at rg_stream nok_int : good.
  Lemma fu_same k : fu False k k.
  Proof. apply fu_refl. Qed.
  Hint Resolve fu_same : good.
  Lemma good_outcome {B} (bad : B -> B -> Prop) (x y : dev * B) : outcome rg anyd bad x y -> ~ bad (snd x) (snd y) -> gd (fst x).
  Proof. destruct x as [d b], y as [e c]. intros [((_ & H) & _)|(_ & H)] Hn; [exact H|contradiction]. Qed.
  Lemma never_io {A} (r : res A) : ~ io nok False r.
  Proof. intros [(k & [] & _)|([] & _)]. Qed.

  Lemma attr_value_good nt a d : gd d -> gd (fst (attr_value nt a d)).
  Proof. intros H. eapply good_outcome; [eapply attr_value_sim; eauto with good; split; auto|apply never_io]. Qed.
  Lemma file_data_good fuel nt f name d : gd d -> gd (fst (file_data fuel nt f name d)).
  Proof. intros H. eapply good_outcome; [eapply file_data_sim; eauto with good; split; auto|apply never_io]. Qed.
  Lemma file_name_of_good fuel nt f ns parent d : gd d -> gd (fst (file_name_of fuel nt f ns parent d)).
  Proof. intros H. eapply good_outcome; [eapply file_name_of_sim; eauto with good; split; auto|apply never_io]. Qed.
  Lemma directory_index_good fuel nt f d : gd d -> gd (fst (directory_index fuel nt f d)).
  Proof. intros H. eapply good_outcome; [eapply directory_index_sim; eauto with good; split; auto|apply never_io]. Qed.
  Lemma get_loop_good fuel k v acc d : gd d -> gd (fst (get_loop fuel k v acc d)).
  Proof. intros H. eapply good_outcome; [eapply get_loop_sim; eauto with good; split; auto|intros (Hn & _); eapply never_io, Hn]. Qed.
  Lemma dir_loop_good fuel k nt ix st acc d : gd d -> gd (fst (dir_loop fuel k nt ix st acc d)).
  Proof. intros H. eapply good_outcome; [eapply dir_loop_sim; eauto with good; split; auto|intros (Hn & _); eapply never_io, Hn]. Qed.
  Lemma file_name_find_good fuel nt ix name d : gd d -> gd (fst (file_name_find fuel nt ix name d)).
  Proof. intros H. eapply good_outcome; [eapply file_name_find_sim; eauto with good; split; auto|intros (r & _ & Hn); eapply never_io, Hn]. Qed.
End Good.
Section More.
  Variables fuel fuel' : nat.
  Hypothesis Hle : (fuel <= fuel')%nat.
  Lemma get_loop_more v d x a : snd (get_loop fuel fuel v [] d) = (x, Ok a) -> get_loop fuel' fuel' v [] d = get_loop fuel fuel v [] d.
  Proof. intros H. eapply fuel_outcome; [eapply get_loop_sim; eauto with fuel|]. rewrite H. intros (Hr & _). apply no_io in Hr; auto. discriminate. Qed.
  Lemma dir_loop_more nt ix st d x a : snd (dir_loop fuel fuel nt ix st [] d) = (x, Ok a) -> dir_loop fuel' fuel' nt ix st [] d = dir_loop fuel fuel nt ix st [] d.
  Proof. intros H. eapply fuel_outcome; [eapply dir_loop_sim; eauto with fuel|]. rewrite H. intros (Hr & _). apply no_io in Hr; auto. discriminate. Qed.
End More.
