(** * Proofs about the input lines of the example program. *)
From Coq Require Import Lia String.
From Verif Require Import Base Dev Types Spec SpecVolume SpecInput Shell BaseProofs ShellSessionProofs.

Lemma is_whitespace_spec c : is_whitespace c = true <-> white c.
Proof.
  unfold is_whitespace, white. rewrite !Bool.orb_true_iff, !Bool.andb_true_iff, !Z.leb_le, existsb_exists. split.
  - intros [[H|(x & Hx & E)]|H]; [lia| |lia]. apply Z.eqb_eq in E. subst x. cbn in Hx. lia.
  - intros H. destruct (Z.le_gt_cases 9 c); [|lia]. destruct (Z.le_gt_cases c 13); [auto|].
    destruct (Z.le_gt_cases 8192 c); [destruct (Z.le_gt_cases c 8202); [auto|]|]; left; right; exists c; (split; [cbn; lia|apply Z.eqb_refl]).
Qed.
Lemma not_white c : is_whitespace c = false <-> ~ white c.
Proof. rewrite <- is_whitespace_spec. destruct (is_whitespace c); intuition congruence. Qed.

Lemma trim_start_spec l : exists w, l = w ++ trim_start l /\ Forall white w /\ begins_black (trim_start l).
Proof.
  induction l as [|c l IH]; cbn [trim_start]; [exists []; repeat split; auto; intros ? ? [=]|].
  destruct (is_whitespace c) eqn:E.
  - destruct IH as (w & Ew & Hw & Hb). exists (c :: w). split; [cbn; now rewrite <- Ew|]. split; auto. constructor; auto. now apply is_whitespace_spec.
  - exists []. split; [reflexivity|]. split; [constructor|]. intros c' u [= <- <-]. now apply not_white.
Qed.
Lemma trim_start_unique w t : Forall white w -> begins_black t -> trim_start (w ++ t) = t.
Proof.
  intros Hw Ht. induction Hw as [|c w Hc _ IH]; cbn.
  - destruct t as [|c t]; auto. cbn. now rewrite (proj2 (not_white c) (Ht c t eq_refl)).
  - now rewrite (proj2 (is_whitespace_spec c) Hc).
Qed.
Lemma begins_rev t : ends_black t <-> begins_black (rev t).
Proof.
  split; intros H c u E.
  - apply (H c (rev u)). rewrite <- (rev_involutive t), E. reflexivity.
  - apply (H c (rev u)). rewrite E, rev_app_distr. reflexivity.
Qed.
Lemma trim_unique before t behind : Forall white before -> Forall white behind -> begins_black t -> ends_black t -> trim (before ++ t ++ behind) = t.
Proof.
  intros H1 H2 B E. unfold trim. destruct t as [|c t].
  - cbn [app]. assert (X : trim_start (before ++ behind) = []).
    { rewrite <- (app_nil_r (before ++ behind)). apply trim_start_unique; [apply Forall_app; auto|]. intros ? ? [=]. }
    now rewrite X.
  - rewrite (trim_start_unique before ((c :: t) ++ behind)); [|assumption|intros c' u E1; injection E1 as <- _; exact (B c t eq_refl)].
    rewrite rev_app_distr, (trim_start_unique (rev behind)), rev_involutive; auto; [now apply Forall_rev|now apply begins_rev].
Qed.
Lemma trim_spec l : exists before behind, l = before ++ trim l ++ behind /\ Forall white before /\ Forall white behind /\ begins_black (trim l) /\ ends_black (trim l).
Proof.
  unfold trim. destruct (trim_start_spec l) as (w & E1 & Hw & B1). destruct (trim_start_spec (rev (trim_start l))) as (x & E2 & Hx & B2).
  assert (E3 : trim_start l = rev (trim_start (rev (trim_start l))) ++ rev x) by (rewrite <- rev_app_distr, <- E2, rev_involutive; reflexivity).
  exists w, (rev x). split; [now rewrite <- E3|]. split; [exact Hw|]. split; [now apply Forall_rev|]. split.
  - intros c u E. apply (B1 c (u ++ rev x)). rewrite E3, E. reflexivity.
  - apply begins_rev. now rewrite rev_involutive.
Qed.

Lemma split_space_spec l : let '(a, b) := split_space l in l = a ++ b /\ ~ In 32 a /\ (b = [] \/ exists t, b = 32 :: t).
Proof.
  induction l as [|c l IH]; cbn [split_space]; [repeat split; auto|]. destruct (c =? 32) eqn:E.
  - apply Z.eqb_eq in E. subst c. split; [reflexivity|]. split; [auto|eauto].
  - apply Z.eqb_neq in E. destruct (split_space l) as [a b]. destruct IH as (-> & Ha & Hb). split; [reflexivity|]. split; auto. intros [H|H]; auto.
Qed.
Lemma split_space_unique a t : ~ In 32 a -> split_space (a ++ 32 :: t) = (a, 32 :: t) /\ split_space a = (a, []).
Proof.
  induction a as [|c a IH]; intros H; cbn; [auto|]. assert (E : (c =? 32) = false) by (apply Z.eqb_neq; intros ->; apply H; cbn; auto).
  rewrite E. destruct IH as (-> & ->); [intros Hi; apply H; cbn; auto|]. auto.
Qed.

(** The word and the argument that the code finds in a line. *)
Definition parts (line : list Z) : list Z * list Z := let '(word, rest) := split_space (trim line) in (word, trim_start rest).
Lemma parts_spec line word arg : parts line = (word, arg) <-> line_is line word arg.
Proof.
  unfold parts. split.
  - destruct (trim_spec line) as (before & behind & E & H1 & H2 & B & X). pose proof (split_space_spec (trim line)) as S.
    destruct (split_space (trim line)) as [w rest]. intros [= <- <-]. destruct S as (Et & Hs & Hr). destruct (trim_start_spec rest) as (b & Er & Hb & Bb).
    rewrite Et in E, B, X. rewrite <- app_assoc in E.
    exists before, b, behind. split; [rewrite app_assoc with (l := b), <- Er; exact E|]. split; [exact H1|]. split; [exact Hb|]. split; [exact H2|]. split; [exact Hs|].
    split; [intros c u Ec; apply (B c (u ++ rest)); now rewrite Ec|]. split; [exact Bb|]. split; [rewrite <- Er; exact X|].
    destruct Hr as [-> | (t & ->)].
    + left. symmetry in Er. apply app_eq_nil in Er. exact Er.
    + right. destruct b as [|c b].
      { exfalso. apply (Bb 32 t); [symmetry; exact Er|]. unfold white. lia. }
      cbn [app] in Er. assert (Ec : c = 32) by congruence. subst c. exists b. split; [reflexivity|]. split.
      * intros ->. apply (B 32 t eq_refl). unfold white. lia.
      * intros E0. rewrite E0, app_nil_r in Er. rewrite Er in X.
        destruct (exists_last (l := 32 :: b) ltac:(discriminate)) as (u & c & Eu). rewrite Eu in X, Hb. apply (X c (w ++ u)); [now rewrite app_assoc|].
        apply Forall_app in Hb. destruct Hb as (_ & Hc). now inversion Hc.
  - intros (before & between & behind & E & H1 & Hb & H2 & Hs & Bw & Ba & X & Hc).
    assert (Bt : begins_black (word ++ between ++ arg)).
    { destruct Hc as [(-> & ->)|(w & -> & Hw & _)]; [now rewrite app_nil_r|]. destruct word as [|c word]; [congruence|]. intros c' u [= <- _]. exact (Bw c word eq_refl). }
    assert (Et : trim line = word ++ between ++ arg).
    { rewrite E. replace (before ++ word ++ between ++ arg ++ behind) with (before ++ (word ++ between ++ arg) ++ behind) by now rewrite <- !app_assoc. now apply trim_unique. }
    rewrite Et. destruct Hc as [(-> & ->)|(w & -> & Hw & _)].
    + cbn [app]. rewrite app_nil_r. now rewrite (proj2 (split_space_unique word [] Hs)).
    + cbn [app]. rewrite (proj1 (split_space_unique word (w ++ arg) Hs)). now rewrite (trim_start_unique (32 :: w) arg Hb Ba : trim_start (32 :: w ++ arg) = arg).
Qed.
Lemma all_white line : Forall white line <-> exists arg, line_is line [] arg.
Proof.
  split.
  - intros H. exists []. exists line, [], []. cbn. rewrite app_nil_r. repeat split; auto; try (intros ? ? E; destruct u; discriminate E); intros ? ? [=].
  - intros (arg & before & between & behind & -> & H1 & Hb & H2 & _ & _ & _ & _ & [(-> & ->)|(w & _ & Hw & _)]); [|congruence]. cbn. apply Forall_app; auto.
Qed.

Lemma read_command_parts line word arg : parts line = (word, arg) -> read_command line =
  if list_eqb word W_attr then Some (DoAttr false arg) else if list_eqb word W_attr_runs then Some (DoAttr true arg) else if list_eqb word W_cd then Some (DoCd arg)
  else if list_eqb word W_dir then Some DoDir else if list_eqb word W_exit || list_eqb word W_quit then None else if list_eqb word W_fileinfo then Some (DoFileinfo arg)
  else if list_eqb word W_fsinfo then Some DoFsinfo else if list_eqb word W_get then Some (DoGet arg) else if list_eqb word W_help then Some (DoHelp arg)
  else match word with [] => Some DoNothing | _ => Some (DoUnknown word) end.
Proof. unfold parts, read_command. destruct (split_space (trim line)) as [w r]. now intros [= <- <-]. Qed.
Lemma list_eqb_refl l : list_eqb l l = true.
Proof. now apply list_eqb_eq. Qed.
Lemma read_command_means line : means line (read_command line).
Proof.
  destruct (parts line) as [word arg] eqn:E. rewrite (read_command_parts _ _ _ E). apply parts_spec in E.
  destruct (list_eqb word W_attr) eqn:E1; [apply list_eqb_eq in E1; subst; now apply me_attr|].
  destruct (list_eqb word W_attr_runs) eqn:E2; [apply list_eqb_eq in E2; subst; now apply me_attr_runs|].
  destruct (list_eqb word W_cd) eqn:E3; [apply list_eqb_eq in E3; subst; now apply me_cd|].
  destruct (list_eqb word W_dir) eqn:E4; [apply list_eqb_eq in E4; subst; now apply (me_dir _ arg)|].
  destruct (list_eqb word W_exit) eqn:E5; [apply list_eqb_eq in E5; subst; now apply (me_exit _ arg)|].
  destruct (list_eqb word W_quit) eqn:E6; [apply list_eqb_eq in E6; subst; now apply (me_quit _ arg)|]. cbn [orb].
  destruct (list_eqb word W_fileinfo) eqn:E7; [apply list_eqb_eq in E7; subst; now apply me_fileinfo|].
  destruct (list_eqb word W_fsinfo) eqn:E8; [apply list_eqb_eq in E8; subst; now apply (me_fsinfo _ arg)|].
  destruct (list_eqb word W_get) eqn:E9; [apply list_eqb_eq in E9; subst; now apply me_get|].
  destruct (list_eqb word W_help) eqn:E10; [apply list_eqb_eq in E10; subst; now apply me_help|].
  destruct word as [|c word]; [apply me_nothing, all_white; eauto|]. apply (me_unknown _ _ arg); auto; [discriminate|].
  assert (N : forall w, list_eqb (c :: word) w = false -> c :: word <> w) by (intros w H E0; rewrite E0, list_eqb_refl in H; discriminate).
  apply N in E1, E2, E3, E4, E5, E6, E7, E8, E9, E10. 
  intros H. repeat (destruct H as [H|H]; [first [now apply E1|now apply E2|now apply E3|now apply E4|now apply E5|now apply E6|now apply E7|now apply E8|now apply E9|now apply E10]|]). destruct H.
Qed.
Lemma means_read line c : means line c -> read_command line = c.
Proof.
  assert (K : forall word arg, line_is line word arg -> parts line = (word, arg)) by (intros; now apply parts_spec).
  intros H. destruct H as [arg H|arg H|arg H|arg H|arg H|arg H|arg H|arg H|arg H|arg H|H|word arg H Hn Hw]; try (rewrite (read_command_parts _ _ _ (K _ _ H)); reflexivity).
  - apply all_white in H. destruct H as (arg & H). rewrite (read_command_parts _ _ _ (K _ _ H)). reflexivity.
  - rewrite (read_command_parts _ _ _ (K _ _ H)).
    assert (N : forall w, In w words -> list_eqb word w = false) by (intros w Hi; destruct (list_eqb word w) eqn:E; auto; apply list_eqb_eq in E; subst w; now exfalso).
    rewrite (N W_attr), (N W_attr_runs), (N W_cd), (N W_dir), (N W_exit), (N W_quit), (N W_fileinfo), (N W_fsinfo), (N W_get), (N W_help) by (cbn; tauto). cbn [orb].
    destruct word; congruence.
Qed.
Lemma read_command_spec line c : read_command line = c <-> means line c.
Proof. split; [intros <-; apply read_command_means|apply means_read]. Qed.

Lemma read_commands_spec lines cs : read_commands lines = cs <-> asks lines cs.
Proof.
  split.
  - intros <-. induction lines as [|line lines IH]; [constructor|]. destruct line as [|c line]; [constructor|]. cbn [read_commands].
    destruct (read_command (c :: line)) as [x|] eqn:E; apply read_command_spec in E; [apply as_command|apply as_exit]; auto; discriminate.
  - induction 1 as [| |line lines Hl Hm|line lines c cs Hl Hm _ IH]; auto; (destruct line as [|x line]; [congruence|]); cbn [read_commands]; apply read_command_spec in Hm; rewrite Hm; congruence.
Qed.

Lemma text_session_ok img v lines cs d : stored_volume img v -> closed v -> plain_names v -> faultless d -> d_img d = img -> asks lines cs -> Forall (command_ok img v) cs ->
  exists N l, history img v [] cs l /\ forall fuel, (N <= fuel)%nat -> text_session fuel lines d = Ok l.
Proof. intros SV Hcl Hpn Hf Hi Ha Hcs. unfold text_session. rewrite (proj2 (read_commands_spec lines cs) Ha). now apply session_ok. Qed.
