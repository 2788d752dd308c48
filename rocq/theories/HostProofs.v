(** * Proofs for C63: the output files of the example program. *)
From Coq Require Import Lia.
From Verif Require Import Base Dev Types Volume Shell Host SpecMisc SpecVolume SpecHost BaseProofs ReaderProofs StreamProofs ShellProofs ShellVolumeProofs ShellSessionProofs SpecFaults FaultProofs FaultSessionProofs.

Lemma host_file_some h name bs : host_file h name = Some bs <-> has_file h name bs.
Proof.
  induction h as [|[n b] t IH]; cbn [host_file].
  - split; [discriminate|]. intros ([|x l1] & l2 & E & _); discriminate.
  - destruct (list_eqb n name) eqn:E.
    + apply list_eqb_eq in E. subst n. split.
      * intros [= ->]. exists [], t. split; [reflexivity|]. intros [].
      * intros ([|[n1 b1] l1] & l2 & E & Hn); cbn [app] in E; [injection E as -> ->; reflexivity|]. injection E as -> -> ->. cbn in Hn. tauto.
    + assert (Hne : n <> name) by (intros ->; rewrite (proj2 (list_eqb_eq name name) eq_refl) in E; discriminate). rewrite IH. split.
      * intros (l1 & l2 & -> & Hn). exists ((n, b) :: l1), l2. split; [reflexivity|]. cbn. tauto.
      * intros ([|[n1 b1] l1] & l2 & E2 & Hn); cbn [app] in E2; [injection E2 as -> -> ->; contradiction|]. injection E2 as -> -> ->. exists l1, l2. split; auto. cbn in Hn. tauto.
Qed.
Lemma host_file_none h name : host_file h name = None <-> no_file h name.
Proof.
  unfold no_file. induction h as [|[n b] t IH]; cbn [host_file map fst In].
  - split; [intros _ []|reflexivity].
  - destruct (list_eqb n name) eqn:E.
    + apply list_eqb_eq in E. subst n. split; [discriminate|]. tauto.
    + rewrite IH. split; [|tauto]. intros H [->|K]; [|auto]. rewrite (proj2 (list_eqb_eq name name) eq_refl) in E. discriminate.
Qed.
Lemma output_name_spec arg : saved_as arg (output_name arg).
Proof.
  unfold output_name. destruct (split_colon arg) as [a b] eqn:E. exists a, b. split; [now apply split_colon_spec|]. destruct b; [left; auto|right; split; [discriminate|reflexivity]].
Qed.
Lemma saved_as_fun arg n1 n2 : saved_as arg n1 -> saved_as arg n2 -> n1 = n2.
Proof.
  intros (f1 & s1 & H1 & K1) (f2 & s2 & H2 & K2). destruct (splits_fun _ _ _ _ _ H1 H2) as (-> & ->). destruct K1 as [(E & ->)|(E & ->)], K2 as [(E2 & ->)|(E2 & ->)]; auto; contradiction.
Qed.

(** ** Any device *)
Lemma NoDup_snoc {A} (l : list A) x : NoDup l -> ~ In x l -> NoDup (l ++ [x]).
Proof.
  intros Hd Hn. apply (NoDup_Add (a := x) (l := l)); [|auto]. rewrite <- (app_nil_r l) at 1. apply Add_app.
Qed.
Section Any.
  Variables (allowed : list Z -> bool) (fuel : nat) (nt : ntfs).
  Lemma hosted_command_keeps sh h c d : snd (fst (snd (hosted_command allowed fuel nt sh h c d))) = h \/
    exists arg name bs, snd (fst (snd (hosted_command allowed fuel nt sh h c d))) = (name, bs) :: h /\ no_file h name /\ allowed name = true /\ c = DoGet arg /\ saved_as arg name.
  Proof.
    unfold hosted_command. destruct c as [arg| |arg|runs arg|arg| |arg| |word]; try (left; destruct (run_command _ _ _ _ _) as [d1 [sh1 r]]; reflexivity).
    destruct (host_file h (output_name arg)) as [bs|] eqn:E1; [left; reflexivity|]. destruct (allowed (output_name arg)) eqn:E2; [|left; reflexivity]. right.
    destruct (run_command _ _ _ _ _) as [d1 [sh1 r]]. exists arg, (output_name arg), (re_data r). apply host_file_none in E1. repeat split; auto. apply output_name_spec.
  Qed.
  Lemma hosted_commands_keeps cs : forall sh h d, exists new, snd (hosted_commands allowed fuel nt sh h cs d) = new ++ h /\
    NoDup (map fst new) /\ forall name, In name (map fst new) -> no_file h name /\ allowed name = true /\ exists arg, In (DoGet arg) cs /\ saved_as arg name.
  Proof.
    induction cs as [|c cs IH]; intros sh h d; cbn [hosted_commands].
    - exists []. split; [reflexivity|]. split; [constructor|]. intros name [].
    - pose proof (hosted_command_keeps sh h c d) as H. destruct (hosted_command allowed fuel nt sh h c d) as [d1 [[sh1 h1] r]]. cbn [fst snd] in H.
      assert (G : exists new2, snd (match r with Replied (mkReply _ _ Panic) | Replied (mkReply _ _ OutOfFuel) => ([], h1) | _ => hosted_commands allowed fuel nt sh1 h1 cs d1 end) = new2 ++ h1 /\
        NoDup (map fst new2) /\ forall name, In name (map fst new2) -> no_file h1 name /\ allowed name = true /\ exists arg, In (DoGet arg) cs /\ saved_as arg name).
      { assert (G0 : exists new2, h1 = new2 ++ h1 /\ NoDup (map fst new2) /\ forall name, In name (map fst new2) -> no_file h1 name /\ allowed name = true /\ exists arg, In (DoGet arg) cs /\ saved_as arg name).
        { exists []. split; [reflexivity|]. split; [constructor|]. intros name []. }
        destruct r as [|[ls bs [a|x| |]]]; try exact (IH sh1 h1 d1); exact G0. }
      destruct (match r with Replied (mkReply _ _ Panic) | Replied (mkReply _ _ OutOfFuel) => ([], h1) | _ => hosted_commands allowed fuel nt sh1 h1 cs d1 end) as [l h2].
      cbn [snd] in G |- *. destruct G as (new & E & Hd & Hn). destruct H as [->|(arg & name & bs & -> & H1 & H2 & -> & H3)].
      + exists new. split; auto. split; auto. intros n Hin. destruct (Hn n Hin) as (A1 & A2 & arg & A3 & A4). split; auto. split; auto. exists arg. split; auto. right. auto.
      + exists (new ++ [(name, bs)]). rewrite <- app_assoc. split; [exact E|]. rewrite map_app. cbn [map fst]. split.
        * apply NoDup_snoc; auto. intros Hin. destruct (Hn _ Hin) as (A1 & _). apply A1. left. reflexivity.
        * intros n Hin. apply in_app_or in Hin. destruct Hin as [Hin|[<-|[]]].
          -- destruct (Hn n Hin) as (A1 & A2 & a & A3 & A4). split; [intros K; apply A1; right; exact K|]. split; auto. exists a. split; auto. right; auto.
          -- split; auto. split; auto. exists arg. split; auto. left; auto.
  Qed.
End Any.
Lemma hosted_session_keeps allowed fuel h cs d l h' : hosted_session allowed fuel h cs d = Ok (l, h') -> exists new, h' = new ++ h /\
  NoDup (map fst new) /\ forall name, In name (map fst new) -> no_file h name /\ allowed name = true /\ exists arg, In (DoGet arg) cs /\ saved_as arg name.
Proof.
  unfold hosted_session. destruct (shell_open fuel d) as [d1 [[nt sh]|x| |]]; try discriminate. intros [= E].
  destruct (hosted_commands_keeps allowed fuel nt cs sh h d1) as (new & E1 & H). rewrite E in E1. exists new. split; auto.
Qed.
Lemma kept_files h new : (forall name, In name (map fst new) -> no_file h name) -> forall name bs, has_file h name bs -> has_file (new ++ h) name bs.
Proof.
  intros H name bs (l1 & l2 & -> & Hn). exists (new ++ l1), l2. rewrite app_assoc. split; auto. rewrite map_app. intros Hin. apply in_app_or in Hin. destruct Hin as [Hin|Hin]; auto.
  apply (H _ Hin). rewrite map_app. apply in_or_app. right. left. reflexivity.
Qed.
Lemma session_keeps_files allowed fuel h cs d l h' : hosted_session allowed fuel h cs d = Ok (l, h') ->
  (forall name bs, has_file h name bs -> has_file h' name bs) /\
  forall name bs, has_file h' name bs -> has_file h name bs \/ no_file h name /\ allowed name = true /\ exists arg, In (DoGet arg) cs /\ saved_as arg name.
Proof.
  intros H. destruct (hosted_session_keeps _ _ _ _ _ _ _ H) as (new & -> & Hd & Hn). split.
  - apply kept_files. intros name Hin. apply (Hn name Hin).
  - intros name bs (l1 & l2 & E & Hn1). destruct (host_file h name) as [bs0|] eqn:Eh.
    + left. apply host_file_some in Eh. assert (K : has_file (new ++ h) name bs0) by (apply kept_files; auto; intros n Hin; apply (Hn n Hin)).
      assert (K2 : has_file (new ++ h) name bs) by (exists l1, l2; auto). apply host_file_some in K, K2. rewrite K in K2. injection K2 as ->. exact Eh.
    + right. apply Hn. apply host_file_none in Eh. assert (Hin : In name (map fst (new ++ h))) by (rewrite E, map_app; apply in_or_app; right; left; reflexivity).
      rewrite map_app in Hin. apply in_app_or in Hin. destruct Hin as [Hin|Hin]; [exact Hin|contradiction (Eh Hin)].
Qed.

(** ** A stored volume *)
Lemma answers_outcome img v p c r p' : answers img v p c r p' -> exists a, re_outcome r = Ok a.
Proof. destruct 1; cbn; eauto. Qed.
Lemma hosted_commands_ok img v nt sh0 allowed : ready img v nt sh0 -> forall cs, Forall (command_ok img v) cs -> forall p sh h d, on_path img v p sh -> good img true d ->
  exists N l h2, hosted_history img v allowed p h cs l h2 /\ forall fuel, (N <= fuel)%nat -> hosted_commands allowed fuel nt sh h cs d = (l, h2).
Proof.
  intros R. induction cs as [|c cs IH]; intros Hcs p sh h d Hp Hg.
  - exists O, [], h. split; [constructor|]. intros; reflexivity.
  - apply Forall_cons_iff in Hcs. destruct Hcs as (Hc & Hcs).
    assert (G : exists N d' sh' r p' h', good img true d' /\ on_path img v p' sh' /\ hosted_answers img v allowed p h c r p' h' /\
      (forall ls bs o, r = Replied (mkReply ls bs o) -> exists a, o = Ok a) /\
      forall fuel, (N <= fuel)%nat -> hosted_command allowed fuel nt sh h c d = (d', (sh', h', r))).
    { assert (Hgen : forall arg, c = DoGet arg -> (exists bs, host_file h (output_name arg) = Some bs) \/ allowed (output_name arg) = false ->
        exists N d' sh' r p' h', good img true d' /\ on_path img v p' sh' /\ hosted_answers img v allowed p h c r p' h' /\
        (forall ls bs o, r = Replied (mkReply ls bs o) -> exists a, o = Ok a) /\
        forall fuel, (N <= fuel)%nat -> hosted_command allowed fuel nt sh h c d = (d', (sh', h', r))).
      { intros arg -> Hx. exists O, d, sh, CannotCreate, p, h. split; auto. split; auto. split; [|split; [discriminate|]].
        - destruct Hx as [(bs & Hx)|Hx]; [apply (ha_exists _ _ _ _ _ arg (output_name arg) bs); [apply output_name_spec|now apply host_file_some]|].
          apply (ha_denied _ _ _ _ _ arg (output_name arg)); [apply output_name_spec|exact Hx].
        - intros fuel _. cbn [hosted_command]. destruct Hx as [(bs & ->)|Hx]; [reflexivity|]. rewrite Hx. destruct (host_file _ _); reflexivity. }
      destruct (rd_step _ _ _ _ R c Hc p sh d Hp Hg) as (N & d' & sh' & r & p' & Hg' & Hp' & Ha & E).
      assert (Ho : forall ls bs o, Replied r = Replied (mkReply ls bs o) -> exists a, o = Ok a).
      { intros ls bs o [= ->]. apply answers_outcome in Ha. exact Ha. }
      assert (Hoth : (forall arg, c <> DoGet arg) -> (forall fuel, (N <= fuel)%nat -> hosted_command allowed fuel nt sh h c d = (d', (sh', h, Replied r))) ->
        exists N d' sh' r p' h', good img true d' /\ on_path img v p' sh' /\ hosted_answers img v allowed p h c r p' h' /\
        (forall ls bs o, r = Replied (mkReply ls bs o) -> exists a, o = Ok a) /\
        forall fuel, (N <= fuel)%nat -> hosted_command allowed fuel nt sh h c d = (d', (sh', h', r))).
      { intros H1 H2. exists N, d', sh', (Replied r), p', h. repeat (split; auto). apply ha_other; auto. }
      destruct c as [arg| |arg|runs arg|arg| |arg| |word]; try (apply Hoth; [discriminate|]; intros fuel Hf; cbn [hosted_command]; rewrite (E fuel Hf); reflexivity).
      destruct (host_file h (output_name arg)) as [bs|] eqn:E1; [apply (Hgen arg); eauto|]. destruct (allowed (output_name arg)) eqn:E2; [|apply (Hgen arg); eauto].
      exists N, d', sh', (Replied r), p', ((output_name arg, re_data r) :: h). split; auto. split; auto. split.
      + apply ha_get; auto; [apply output_name_spec|now apply host_file_none].
      + split; [exact Ho|]. intros fuel Hf. cbn [hosted_command]. rewrite E1, E2, (E fuel Hf). reflexivity. }
    destruct G as (N1 & d1 & sh1 & r & p1 & h1 & Hg1 & Hp1 & Ha & Ho & E1). destruct (IH Hcs p1 sh1 h1 d1 Hp1 Hg1) as (N2 & l & h2 & Hh & E2).
    exists (N1 + N2)%nat, ((r, prompt p1) :: l), h2. split; [econstructor; eauto|]. intros fuel Hf. cbn [hosted_commands]. rewrite E1 by lia.
    rewrite (proj1 Hp1).
    destruct r as [|[ls bs o]]; [rewrite E2 by lia; reflexivity|]. destruct (Ho _ _ _ eq_refl) as (a & ->). rewrite E2 by lia. reflexivity.
Qed.
Lemma hosted_session_ok img v allowed h cs d : stored_volume img v -> closed v -> plain_names v -> faultless d -> d_img d = img -> Forall (command_ok img v) cs ->
  exists N l h', hosted_history img v allowed [] h cs l h' /\ forall fuel, (N <= fuel)%nat -> hosted_session allowed fuel h cs d = Ok (l, h').
Proof.
  intros SV Hcl Hpn Hf Hi Hcs. destruct (shell_open_ok img v d SV Hcl Hpn Hf Hi) as (N1 & nt & sh & d1 & Hg & Hr & E).
  destruct (hosted_commands_ok img v nt sh allowed Hr cs Hcs [] sh h d1 (rd_path _ _ _ _ Hr) Hg) as (N2 & l & h' & Hh & Hout).
  exists (N1 + N2)%nat, l, h'. split; auto. intros fuel Hfu. unfold hosted_session. rewrite E by lia. f_equal. apply Hout. lia.
Qed.

(** ** A stored volume on a device with faults *)
Section Faulty.
  Context (img : list Z) (v : volume) (nt : ntfs) (sh0 : shell) (Hr : ready img v nt sh0) (D : dev) (no_int : ~ reports D Interrupted) (allowed : list Z -> bool).
  Lemma command_parts c : command_ok img v c -> forall p sh d, on_path img v p sh -> d_img d = img -> (forall k, reports d k -> reports D k) ->
    exists N d1 sh1 r p1 due p', d_img d1 = img /\ (forall k, reports d1 k -> reports D k) /\ on_path img v p1 sh1 /\ answers img v p c due p' /\ begins (re_data r) (re_data due) /\
      (exists x, re_outcome r = Ok x \/ exists k, re_outcome r = Err k) /\ forall fuel, (N <= fuel)%nat -> run_command fuel nt sh c d = (d1, (sh1, r)).
  Proof.
    intros Hc p sh d Hp Hi Hk.
    assert (Hg : good img true (without_faults d)) by (split; [exact Hi|intros _; apply without_faultless]).
    destruct (rd_step _ _ _ _ Hr c Hc p sh (without_faults d) Hp Hg) as (N1 & e' & sh' & due & p' & Hg' & Hp' & Ha & Hrun). specialize (Hrun N1 (le_n N1)).
    assert (Hn : ~ reports d Interrupted) by (intros H; apply no_int, Hk, H).
    pose proof (command_honest d N1 nt sh c Hn) as H. pose proof (fun fuel Hle => run_command_fuel N1 fuel Hle nt sh c d) as Hfuel. rewrite Hrun in H.
    destruct (run_command N1 nt sh c d) as [d1 [sh1 r]]. cbn [snd] in Hfuel. destruct (answers_done _ _ _ _ _ _ Ha) as (a & Hout).
    destruct H as (Hi1 & Hk1 & [(-> & -> & _ & Hf)|(-> & Hbad & Hf)]).
    - exists N1, d1, sh', due, p', due, p'. split; [congruence|]. split; [auto|]. split; [auto|]. split; [auto|]. split; [exists []; now rewrite app_nil_r|].
      split; [exists a; auto|]. intros fuel Hle. apply Hfuel; congruence.
    - exists N1, d1, sh, r, p, due, p'. split; [congruence|]. split; [auto|]. split; [auto|]. split; [auto|].
      assert (Hcont : exists x, re_outcome r = Ok x \/ exists k, re_outcome r = Err k).
      { destruct Hbad as [Hbad|(_ & l0 & -> & _)]; [destruct (harmed_outcome _ _ _ Hbad) as (k & _ & ->)|cbn]; exists (Done tt); eauto. }
      split. { destruct Hbad as [(_ & _ & Hb)|(_ & l0 & -> & _)]; [exact Hb|]. cbn. exists (re_data due). reflexivity. }
      split; [exact Hcont|]. intros fuel Hle. apply Hfuel; auto. destruct Hcont as (x & [E|(y & E)]); congruence.
  Qed.
  Lemma hosted_commands_parts cs : Forall (command_ok img v) cs -> forall p sh h d, on_path img v p sh -> d_img d = img -> (forall k, reports d k -> reports D k) ->
    exists N l new, (forall name bs, In (name, bs) new -> saves_part img v cs name bs) /\ forall fuel, (N <= fuel)%nat -> hosted_commands allowed fuel nt sh h cs d = (l, new ++ h).
  Proof.
    induction 1 as [|c cs Hc _ IH]; intros p sh h d Hp Hi Hk.
    - exists 0%nat, [], []. split; [intros name bs []|reflexivity].
    - assert (Hmore : forall new, (forall name bs, In (name, bs) new -> saves_part img v cs name bs) -> forall name bs, In (name, bs) new -> saves_part img v (c :: cs) name bs).
      { intros new H name bs Hin. destruct (H _ _ Hin) as (arg & q & due & q' & H1 & H2). exists arg, q, due, q'. split; [right; auto|auto]. }
      assert (Hskip : (forall fuel, hosted_command allowed fuel nt sh h c d = (d, (sh, h, CannotCreate))) ->
        exists N l new, (forall name bs, In (name, bs) new -> saves_part img v (c :: cs) name bs) /\ forall fuel, (N <= fuel)%nat -> hosted_commands allowed fuel nt sh h (c :: cs) d = (l, new ++ h)).
      { intros E. destruct (IH p sh h d Hp Hi Hk) as (N & l & new & Hn & El). exists N, ((CannotCreate, sh_text sh) :: l), new. split; [exact (Hmore new Hn)|].
        intros fuel Hle. cbn [hosted_commands]. rewrite E. rewrite (El fuel Hle). reflexivity. }
      destruct (command_parts c Hc p sh d Hp Hi Hk) as (N1 & d1 & sh1 & r & p1 & due & p' & Hi1 & Hk1 & Hp1 & Ha & Hb & Hcont & E1).
      assert (Hrun : forall h1, (forall fuel, (N1 <= fuel)%nat -> hosted_command allowed fuel nt sh h c d = (d1, (sh1, h1, Replied r))) ->
        exists N l new, (forall name bs, In (name, bs) new -> saves_part img v cs name bs) /\ forall fuel, (N <= fuel)%nat -> hosted_commands allowed fuel nt sh h (c :: cs) d = (l, new ++ h1)).
      { intros h1 E. destruct (IH p1 sh1 h1 d1 Hp1 Hi1 Hk1) as (N2 & l & new & Hn & El). exists (N1 + N2)%nat, ((Replied r, sh_text sh1) :: l), new. split; [auto|].
        intros fuel Hle. cbn [hosted_commands]. rewrite E by lia. destruct r as [ls bs o]. cbn [re_outcome] in Hcont.
        destruct Hcont as (x & [->|(y & ->)]); rewrite El by lia; reflexivity. }
      assert (Hoth : (forall fuel, (N1 <= fuel)%nat -> hosted_command allowed fuel nt sh h c d = (d1, (sh1, h, Replied r))) ->
        exists N l new, (forall name bs, In (name, bs) new -> saves_part img v (c :: cs) name bs) /\ forall fuel, (N <= fuel)%nat -> hosted_commands allowed fuel nt sh h (c :: cs) d = (l, new ++ h)).
      { intros E. destruct (Hrun h E) as (N & l & new & Hn & El). exists N, l, new. split; [exact (Hmore new Hn)|exact El]. }
      destruct c as [arg| |arg|runs arg|arg| |arg| |word]; try (apply Hoth; intros fuel Hle; cbn [hosted_command]; rewrite E1 by exact Hle; reflexivity).
      destruct (host_file h (output_name arg)) as [bs|] eqn:Eh; [apply Hskip; intros fuel; cbn [hosted_command]; rewrite Eh; reflexivity|].
      destruct (allowed (output_name arg)) eqn:Ea; [|apply Hskip; intros fuel; cbn [hosted_command]; rewrite Eh, Ea; reflexivity].
      destruct (Hrun ((output_name arg, re_data r) :: h)) as (N & l & new & Hn & El).
      { intros fuel Hle. cbn [hosted_command]. rewrite Eh, Ea, E1 by exact Hle. reflexivity. }
      exists N, l, (new ++ [(output_name arg, re_data r)]). split; [|intros fuel Hle; rewrite El by exact Hle; now rewrite <- app_assoc].
      intros name bs Hin. apply in_app_or in Hin. destruct Hin as [Hin|[[= <- <-]|[]]]; [exact (Hmore new Hn _ _ Hin)|].
      exists arg, p, due, p'. split; [left; reflexivity|]. split; [apply output_name_spec|]. split; assumption.
  Qed.
End Faulty.
Lemma hosted_session_parts img v allowed h cs d : stored_volume img v -> closed v -> plain_names v -> d_img d = img -> ~ reports d Interrupted -> Forall (command_ok img v) cs ->
  exists N, (exists k, reports d k /\ forall fuel, (N <= fuel)%nat -> hosted_session allowed fuel h cs d = Err (EIo k)) \/
    exists replies h', (forall fuel, (N <= fuel)%nat -> hosted_session allowed fuel h cs d = Ok (replies, h')) /\
      forall name bs, has_file h' name bs -> has_file h name bs \/ no_file h name /\ saves_part img v cs name bs.
Proof.
  intros SV Hcl Hpn Hi Hint Hcs. destruct (shell_open_ok img v (without_faults d) SV Hcl Hpn (without_faultless d) Hi) as (N1 & nt & sh & e1 & Hg & Hr & E).
  specialize (E N1 (le_n N1)). pose proof (shell_open_honest d Hint N1) as H. pose proof (fun fuel Hle => shell_open_fuel N1 fuel Hle d) as Hfuel.
  unfold honest_call, honest in H. rewrite E in H. destruct (shell_open N1 d) as [d1 r]. cbn [snd] in Hfuel. destruct H as (Hi1 & Hk & [(-> & _ & Hf)|((k & HK & ->) & Hf)]).
  - destruct (hosted_commands_parts img v nt sh Hr d Hint allowed cs Hcs [] sh h d1 (rd_path _ _ _ _ Hr)) as (N2 & l & new & Hn & Hl); [congruence|auto|].
    assert (Es : forall fuel, (N1 + N2 <= fuel)%nat -> hosted_session allowed fuel h cs d = Ok (l, new ++ h)).
    { intros fuel Hfu. unfold hosted_session. rewrite Hfuel by (lia || discriminate). f_equal. apply Hl. lia. }
    exists (N1 + N2)%nat. right. exists l, (new ++ h). split; [exact Es|].
    intros name bs Hf1. destruct (session_keeps_files _ _ _ _ _ _ _ (Es _ (le_n _))) as (_ & K). destruct (K name bs Hf1) as [K1|(K1 & _)]; [left; exact K1|right]. split; [exact K1|].
    apply Hn. destruct Hf1 as (l1 & l2 & E1 & _). assert (Hin : In (name, bs) (new ++ h)) by (rewrite E1; apply in_or_app; right; left; reflexivity).
    apply in_app_or in Hin. destruct Hin as [Hin|Hin]; [exact Hin|]. contradiction K1. change name with (fst (name, bs)). now apply in_map.
  - exists N1. left. exists k. split; auto. intros fuel Hfu. unfold hosted_session. rewrite Hfuel by (lia || discriminate). reflexivity.
Qed.
