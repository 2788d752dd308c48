(** * What operations can do to the device: they use up schedule entries and move the cursor, nothing else. *)
From Coq Require Import Lia.
From Verif Require Import Base Dev Types Record DataRuns Stream NonResident Resident Attribute File Structured AttrList.

Definition suffix {A} (s l : list A) : Prop := exists p, l = p ++ s.
Definition evolves (d d' : dev) : Prop :=
  d_img d' = d_img d /\ suffix (d_reads d') (d_reads d) /\ suffix (d_seeks d') (d_seeks d).

Lemma suffix_refl {A} (l : list A) : suffix l l.
Proof. now exists []. Qed.
Lemma suffix_trans {A} (a b c : list A) : suffix a b -> suffix b c -> suffix a c.
Proof. intros (p & ->) (q & ->). exists (q ++ p). now rewrite app_assoc. Qed.
Lemma suffix_cons {A} (x : A) l : suffix l (x :: l).
Proof. now exists [x]. Qed.
Lemma suffix_length {A} (s l : list A) : suffix s l -> (length s <= length l)%nat.
Proof. intros (p & ->). rewrite app_length. lia. Qed.
Lemma suffix_Forall {A} (P : A -> Prop) s l : suffix s l -> Forall P l -> Forall P s.
Proof. intros (p & ->) H. apply Forall_app in H. tauto. Qed.

Lemma evolves_refl d : evolves d d.
Proof. split; auto using suffix_refl. Qed.
Lemma evolves_trans a b c : evolves a b -> evolves b c -> evolves a c.
Proof. intros (A1 & A2 & A3) (B1 & B2 & B3). split; [congruence|]. split; eapply suffix_trans; eauto. Qed.
Lemma evolves_length d d' : evolves d d' -> (length (d_reads d') <= length (d_reads d))%nat.
Proof. intros (_ & H & _). now apply suffix_length. Qed.
Lemma evolves_faultless d d' : evolves d d' -> faultless d -> faultless d'.
Proof. intros (_ & H1 & H2) (F1 & F2). split; eapply suffix_Forall; eauto. Qed.
#[export] Hint Resolve evolves_refl : core.

Lemma dev_seek_evolves n d : evolves d (fst (dev_seek n d)).
Proof. unfold dev_seek, evolves. destruct (d_seeks d) as [|[e|] t]; cbn; auto using suffix_refl, suffix_cons. Qed.
Lemma dev_read_evolves n d : evolves d (fst (dev_read n d)).
Proof. unfold dev_read, evolves. destruct (d_reads d) as [|[k|e] t]; cbn [fst d_img d_reads d_seeks]; auto using suffix_refl, suffix_cons. Qed.

Lemma dev_read_exact_loop_evolves fuel : forall n acc d, evolves d (fst (dev_read_exact_loop fuel n acc d)).
Proof.
  induction fuel as [|k IH]; intros n acc d; cbn [dev_read_exact_loop]; destruct (n <=? 0); auto.
  pose proof (dev_read_evolves n d) as H. destruct (dev_read n d) as [d' r]. cbn [fst] in H.
  destruct r as [[|b t]|[]| |]; auto; try (eapply evolves_trans; [exact H|apply IH]).
  destruct k0; auto. eapply evolves_trans; [exact H|apply IH].
Qed.
Lemma dev_read_exact_evolves n d : evolves d (fst (dev_read_exact n d)).
Proof. apply dev_read_exact_loop_evolves. Qed.

Lemma mbind_evolves {A B} (m : M A) (f : A -> M B) d : (forall d, evolves d (fst (m d))) -> (forall a d, evolves d (fst (f a d))) -> evolves d (fst (mbind m f d)).
Proof.
  intros Hm Hf. unfold mbind. pose proof (Hm d) as H. destruct (m d) as [d' [a|e| |]]; auto. eapply evolves_trans; [exact H|apply Hf].
Qed.

(** Splits the matches of the goal one after the other; [ev_call] uses what is known about a device operation. *)
Ltac ev_call lem := let H := fresh "Hev" in
  match goal with |- evolves ?a (fst (match ?x with _ => _ end)) => 
    pose proof lem as H; destruct x as [? ?]; cbn [fst] in H end.
Ltac ev_done := first [ apply evolves_refl | assumption
  | match goal with H : evolves ?a ?b |- evolves ?a _ => eapply evolves_trans; [exact H|]; clear H; ev_done end ].
Ltac ev_pure := repeat match goal with
  | |- evolves _ (fst (_, _)) => cbn [fst]; ev_done
  | |- evolves _ (fst (match ?x with _ => _ end)) => lazymatch type of x with (dev * _)%type => fail | _ => destruct x end
  end.

Lemma run_read_evolves r n d : evolves d (fst (run_read r n d)).
Proof.
  unfold run_read. destruct (_ =? 0); auto. destruct (r_pos r) as [p|]; auto. destruct (U64_MAX <? _); auto.
  ev_call (dev_seek_evolves (p + r_sp r) d). destruct r0; ev_pure.
  match goal with |- evolves _ (fst (match dev_read ?k ?d1 with _ => _ end)) => ev_call (dev_read_evolves k d1) end. ev_pure.
Qed.
Lemma ss_read_data_run_evolves s n d : evolves d (fst (ss_read_data_run s n d)).
Proof.
  unfold ss_read_data_run. destruct (ss_run s) as [r|]; auto. destruct (_ <=? _); auto. destruct (_ =? 0); auto.
  ev_call (run_read_evolves r (Z.min n (Z.max 0 (ss_size s - ss_pos s))) d). ev_pure.
Qed.

Section Loops.
  Context {S : Type} (o : stream_ops S).
  Context (Hadv : forall s d, evolves d (fst (so_advance o s d))) (Hrew : forall s d, evolves d (fst (so_rewind o s d))).
  Lemma stream_read_loop_evolves fuel : forall s n acc d, evolves d (fst (stream_read_loop o fuel s n acc d)).
  Proof.
    induction fuel as [|k IH]; intros s n acc d; cbn [stream_read_loop]; destruct (n <=? zlen acc); auto.
    ev_call (ss_read_data_run_evolves (so_ss o s) (n - zlen acc) d). destruct p as [ss1 [[|b t]|e| |]]; ev_pure.
    - ev_call (Hadv (so_set o s ss1) d0). destruct p as [s2 [[]|e| |]]; ev_pure. eapply evolves_trans; [|apply IH]. ev_done.
    - eapply evolves_trans; [|apply IH]. ev_done.
  Qed.
  Lemma stream_seek_loop_evolves fuel : forall s b left d, evolves d (fst (stream_seek_loop o fuel s b left d)).
  Proof.
    induction fuel as [|k IH]; intros s b left d; cbn [stream_seek_loop]; destruct (left <=? 0); auto.
    destruct (ss_seek_data_run _ _ _) as [[ss1 left1] [[]|e| |]]; ev_pure.
    ev_call (Hadv (so_set o s ss1) d). destruct p as [s2 [[]|e| |]]; ev_pure. eapply evolves_trans; [|apply IH]. ev_done.
  Qed.
  Lemma stream_seek_finish_fst pos r d : evolves d (fst r) -> evolves d (fst (stream_seek_finish o pos r)).
  Proof. destruct r as [d1 [s1 [u|e| |]]]; cbn [stream_seek_finish fst]; auto. intros H. destruct pos; auto. destruct (_ <? _); auto. Qed.
  Lemma stream_seek_evolves fuel s len pos d : evolves d (fst (stream_seek o fuel s len pos d)).
  Proof.
    unfold stream_seek. destruct (optimize_seek _ _ _) as [[n|n|n]|e| |]; auto.
    - ev_call (Hrew s d). destruct p as [s1 [u|e| |]]; ev_pure. apply stream_seek_finish_fst. eapply evolves_trans; [|apply stream_seek_loop_evolves]. ev_done.
    - destruct (0 <=? n); auto. apply stream_seek_finish_fst. apply stream_seek_loop_evolves.
  Qed.
End Loops.

Lemma nr_read_evolves v n d : evolves d (fst (nr_read v n d)).
Proof. apply stream_read_loop_evolves. intros; apply evolves_refl. Qed.
Lemma nr_seek_evolves v pos d : evolves d (fst (nr_seek v pos d)).
Proof. apply stream_seek_evolves; intros; apply evolves_refl. Qed.

Section ReadExact.
  Context {S : Type} (read : S -> Z -> dev -> dev * (S * res (list Z))) (Hr : forall s n d, evolves d (fst (read s n d))).
  Lemma rs_read_exact_loop_evolves fuel : forall s n acc d, evolves d (fst (rs_read_exact_loop read fuel s n acc d)).
  Proof.
    induction fuel as [|k IH]; intros s n acc d; cbn [rs_read_exact_loop]; destruct (n <=? 0); auto.
    ev_call (Hr s n d). destruct p as [s1 [[|b t]|e| |]]; ev_pure; (eapply evolves_trans; [|apply IH]; ev_done).
  Qed.
  Lemma rs_read_exact_evolves s n d : evolves d (fst (rs_read_exact read s n d)).
  Proof. apply rs_read_exact_loop_evolves. Qed.
  Lemma attached_evolves s n d : evolves d (fst (attached read s n d)).
  Proof. unfold attached. ev_call (Hr s n d). destruct p as [s1 [x|e| |]]; ev_pure. Qed.
End ReadExact.
Lemma attached_exact_evolves {S} (read : S -> Z -> dev -> dev * (S * res (list Z))) n s d :
  (forall s n d, evolves d (fst (read s n d))) -> evolves d (fst (attached_exact read n s d)).
Proof. intros H. apply rs_read_exact_evolves. intros. now apply attached_evolves. Qed.

Lemma rm_bind_evolves {S A B} (m : RM S A) (f : A -> RM S B) s d :
  (forall s d, evolves d (fst (m s d))) -> (forall a s d, evolves d (fst (f a s d))) -> evolves d (fst (rm_bind m f s d)).
Proof.
  intros Hm Hf. unfold rm_bind. ev_call (Hm s d). destruct p as [s1 [x|e| |]]; ev_pure. eapply evolves_trans; [|apply Hf]. ev_done.
Qed.
Lemma le_new_evolves {S} (rx : Z -> RM S (list Z)) p s d : (forall n s d, evolves d (fst (rx n s d))) -> evolves d (fst (le_new rx p s d)).
Proof.
  intros H. unfold le_new. apply rm_bind_evolves; [apply H|]. intros h s1 d1. cbn zeta. destruct (_ <? _); [apply evolves_refl|].
  apply rm_bind_evolves; [apply H|]. intros. apply evolves_refl.
Qed.
Lemma alist_next_evolves l d : evolves d (fst (alist_next l d)).
Proof.
  unfold alist_next. destruct l as [[|b t] p|v]; auto.
  - destruct (snd (snd _)) as [e|x| |]; auto. destruct (_ <=? _); auto.
  - destruct (_ <=? _); auto. ev_call (le_new_evolves (attached_exact nr_read) (nr_data_position v) v d ltac:(intros; apply attached_exact_evolves; intros; apply nr_read_evolves)).
    destruct p as [v1 [e|x| |]]; ev_pure. ev_call (nr_seek_evolves v (SCurrent (le_length e)) d0). destruct p as [v2 [n|x| |]]; ev_pure.
Qed.

Lemma file_new_evolves nt p n d : evolves d (fst (file_new nt p n d)).
Proof.
  unfold file_new. apply mbind_evolves; [apply dev_seek_evolves|]. intros _ d1. apply mbind_evolves; [apply dev_read_exact_evolves|]. intros. apply evolves_refl.
Qed.
Lemma sv_seek_evolves v pos d : evolves d (fst (sv_seek v pos d)).
Proof.
  destruct v as [r|v]; cbn [sv_seek].
  - destruct (res_seek r pos d) as [d' [r' x]] eqn:E. assert (d' = d). { unfold res_seek in E. destruct (seek_contiguous _ _ _) as [? ?]. congruence. } subst. auto.
  - pose proof (nr_seek_evolves v pos d) as H. destruct (nr_seek v pos d) as [d' [v' x]]. exact H.
Qed.
Lemma sv_read_evolves v n d : evolves d (fst (sv_read v n d)).
Proof.
  destruct v as [r|v]; cbn [sv_read].
  - destruct (res_read r n d) as [d' [r' x]] eqn:E. assert (d' = d). { unfold res_read in E. destruct (_ =? 0); [congruence|]. destruct (idx_range _ _ _); congruence. } subst. auto.
  - pose proof (nr_read_evolves v n d) as H. destruct (nr_read v n d) as [d' [v' x]]. exact H.
Qed.
Lemma ntfs_file_evolves nt n d : evolves d (fst (ntfs_file nt n d)).
Proof.
  unfold ntfs_file. destruct (checked_mul64 _ _); [|apply evolves_refl]. destruct (mft_position nt); [|apply evolves_refl].
  apply mbind_evolves; [apply file_new_evolves|]. intros f d1. apply mbind_evolves; [intros; apply evolves_refl|]. intros a d2.
  apply mbind_evolves; [intros; apply evolves_refl|]. intros v d3. ev_call (sv_seek_evolves v (SStart z) d3). destruct p as [v' [x|e| |]]; ev_pure.
  eapply evolves_trans; [|apply file_new_evolves]. ev_done.
Qed.

(** ** Values continued by attribute lists *)
Lemma lv_next_entry_evolves v d : evolves d (fst (lv_next_entry v d)).
Proof.
  unfold lv_next_entry. destruct (lv_entries v) as [l|]; auto. ev_call (alist_next_evolves l d). ev_pure.
Qed.
Lemma lv_next_attribute_evolves v d : evolves d (fst (lv_next_attribute v d)).
Proof.
  unfold lv_next_attribute. ev_call (lv_next_entry_evolves v d). destruct p as [v1 [[e|x| |]|]]; ev_pure.
  unfold le_to_file. ev_call (ntfs_file_evolves (lv_ntfs v) (le_number e) d0). ev_pure.
Qed.
Lemma lv_advance_evolves v d : evolves d (fst (lv_advance v d)).
Proof. unfold lv_advance. destruct (lv_next_data_run v) as [v1 [[]|e| |]]; auto. apply lv_next_attribute_evolves. Qed.
Lemma lv_rewind_evolves v d : evolves d (fst (lv_rewind v d)).
Proof. unfold lv_rewind. ev_call (lv_next_attribute_evolves (lv_set_ss (lv_set_entries v (Some (lv_initial v))) (ss_new (lv_size v))) d). ev_pure. Qed.
Lemma lv_read_evolves fuel v n d : evolves d (fst (lv_read fuel v n d)).
Proof. apply stream_read_loop_evolves. exact lv_advance_evolves. Qed.
Lemma lv_seek_evolves fuel v pos d : evolves d (fst (lv_seek fuel v pos d)).
Proof. apply stream_seek_evolves; [exact lv_advance_evolves|exact lv_rewind_evolves]. Qed.
