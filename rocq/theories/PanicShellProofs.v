(** * A session of the example program on a tame volume does not panic (C65). *)
From Coq Require Import Lia.
From Verif Require Import Base Dev Types Record DataRuns Stream NonResident Resident BootSector Attribute File Structured AttrList Upcase Index Time Volume Shell
  Spec SpecMisc SpecIndex SpecTotal SpecPanic BaseProofs BootSectorProofs MiscProofs AttributeProofs FileProofs AttrListProofs UpcaseProofs EvolveProofs TerminationProofs ShellSessionProofs ListTotalProofs ShellTotalProofs PanicProofs PanicIndexProofs.

Lemma npm_from {A} img (Q : A -> Prop) (m : M A) : npm img Q m -> npm img (fun a => Q a /\ exists d d', d_img d = img /\ m d = (d', Ok a)) m.
Proof.
  intros H d Hd. destruct (H d Hd) as (H1 & H2). split; auto. apply np_ok; [exact (np_not _ _ H2)|]. intros a E. rewrite E in H2. split; auto.
  exists d, (fst (m d)). split; auto. rewrite <- E. now destruct (m d).
Qed.
(** Computations that print. *)
Definition npp {A} (img : list Z) (Q : A -> Prop) (m : P A) : Prop := forall d, d_img d = img -> let '(d', (_, x)) := m d in d_img d' = img /\ np Q x.
Lemma npp_bind {A B} img (P1 : A -> Prop) (Q : B -> Prop) (m : P A) (f : A -> P B) : npp img P1 m -> (forall a, P1 a -> npp img Q (f a)) -> npp img Q (pbind m f).
Proof.
  intros Hm Hf d Hd. unfold pbind. specialize (Hm d Hd). destruct (m d) as [d1 [l1 x]]. destruct Hm as (H1 & H2). destruct x as [a|e| |]; cbn in H2; try (split; auto; fail).
  specialize (Hf a H2 d1 H1). destruct (f a d1) as [d2 [l2 y]]. exact Hf.
Qed.
Lemma npp_lift {A} img (Q : A -> Prop) (x : res A) : np Q x -> npp img Q (plift x).
Proof. intros H d Hd. split; auto. Qed.
Lemma npp_m {A} img (Q : A -> Prop) (m : M A) : npm img Q m -> npp img Q (pm m).
Proof. intros H d Hd. unfold pm. destruct (H d Hd) as (H1 & H2). destruct (m d) as [d1 x]. auto. Qed.
Lemma npp_print img l : npp img (fun _ => True) (print l).
Proof. intros d Hd. split; auto. exact Logic.I. Qed.
Lemma npp_ret {A} img (Q : A -> Prop) a : Q a -> npp img Q (pret a).
Proof. intros H d Hd. split; auto. Qed.
Lemma npp_true {A} img (Q : A -> Prop) (m : P A) : npp img Q m -> npp img (fun _ => True) m.
Proof. intros H d Hd. specialize (H d Hd). destruct (m d) as [d1 [l x]]. destruct H as (H1 & H2). split; auto. destruct x; cbn in *; auto. Qed.

Lemma usable_of nt img : opened nt -> tame_volume nt img -> usable nt img.
Proof.
  intros (d & d' & nt0 & t & Hd & E & ->) T. pose proof T as (T1 & T2 & _).
  assert (K : 1 <= cluster_size nt0 /\ 32 <= file_record_size nt0 /\ exists mp, mft_position nt0 = Some mp /\ 0 <= mp).
  { unfold ntfs_new, mbind in E. destruct (dev_seek 0 d) as [d1 y] eqn:E1. pose proof (dev_seek_evolves 0 d) as Ev1. rewrite E1 in Ev1. cbn [fst] in Ev1. destruct y as [[]| | |]; try discriminate.
    destruct (dev_read_exact_loop_calm (length (d_reads d1) + 2) 512 [] d1 (dev_ok_evolves _ _ Ev1 Hd) (Forall_nil _)) as (_ & C2). fold (dev_read_exact 512 d1) in C2.
    pose proof (dev_read_exact_loop_len (length (d_reads d1) + 2) 512 [] d1) as L. fold (dev_read_exact 512 d1) in L.
    destruct (dev_read_exact 512 d1) as [d2 z]. destruct z as [data| | |]; try discriminate. specialize (L d2 data ltac:(lia) eq_refl). change (zlen []) with 0 in L. cbn [snd] in C2.
    unfold mlift in E. assert (En : ntfs_of_boot (decode_boot data) = Ok nt0) by congruence. pose proof (ntfs_of_boot_spec data L (C2 _ eq_refl)) as B. rewrite En in B.
    destruct B as (mft & [B1 B2 B3 B4 B5 B6 B7] & B8 & B9). destruct B3 as (spc & S1 & S2 & S3). destruct B5 as (-> & B5 & _). splits; [lia| |].
    - destruct B6 as [(G1 & ->)|(G1 & ->)]; [nia|]. change 32 with (2 ^ 5). apply Z.pow_le_mono_r; lia.
    - eexists. split; [exact B8|]. nia. }
  destruct K as (K1 & K2 & K3). split; cbn; auto.
Qed.

Section Shell.
  Context (nt : ntfs) (img : list Z) (U : usable nt img) (Ht : has_table nt) (Td : tame_directories nt img) (Pf : plain_files nt img).
  Notation cs := (cluster_size nt).
  Let Hb : bytes_ok img := proj1 (us_tame nt img U).

  Definition sfile (f : file) : Prop := seen nt img f /\ gfile cs f.
  Lemma file_np n : 0 <= n -> npm img (fun f => sfile f /\ f_number f = n) (ntfs_file nt n).
  Proof.
    intros Hn. eapply npm_weak; [apply npm_from; exact (ntfs_file_np nt img U n Hn)|]. intros f ((H1 & H2) & d & d' & Hd & E). split; auto. split; auto. right. exists n, d, d'. auto.
  Qed.
  (** The directories and the text of the prompt: there is a directory for every part of the text, and one more. *)
  Definition parts (text : list Z) : nat := match text with [] => O | _ => S (count_occ Z.eq_dec text 92%Z) end.
  Record gshell (sh : shell) : Prop := { gs_dirs : Forall sfile (sh_dirs sh); gs_parts : (parts (sh_text sh) < length (sh_dirs sh))%nat }.
  Lemma before_backslash_parts l : (parts (match before_last_backslash l with Some r => r | None => [] end) <= count_occ Z.eq_dec l 92%Z)%nat.
  Proof.
    assert (H : forall l r, before_last_backslash l = Some r -> (count_occ Z.eq_dec r 92%Z < count_occ Z.eq_dec l 92%Z)%nat).
    { clear. induction l as [|c t IH]; intros r; cbn [before_last_backslash]; [discriminate|]. destruct (before_last_backslash t) as [r'|].
      - intros [= <-]. specialize (IH r' eq_refl). cbn [count_occ]. destruct (Z.eq_dec c 92); lia.
      - destruct (c =? 92) eqn:E; [|discriminate]. intros [= <-]. cbn [count_occ]. destruct (Z.eq_dec c 92); lia. }
    destruct (before_last_backslash l) as [r|] eqn:E; [|cbn; lia]. specialize (H l r E). unfold parts. destruct r; lia.
  Qed.
  Lemma cd_up_good sh : gshell sh -> gshell (cd_up sh).
  Proof.
    intros [H1 H2]. unfold cd_up. destruct (sh_text sh) as [|c t] eqn:E; [split; auto; now rewrite E|]. pose proof (before_backslash_parts (c :: t)) as Hp.
    split; cbn [sh_dirs sh_text].
    - destruct H1; cbn; auto.
    - destruct (sh_dirs sh) as [|f fs]; cbn [length tl] in *; [lia|]. unfold parts in H2 at 1. lia.
  Qed.
  Lemma cd_enter_good sh f fn : gshell sh -> sfile f -> ~ In 92 (units (fn_name fn)) -> gshell (cd_enter sh f fn).
  Proof.
    intros [H1 H2] Hf Hn. apply (count_occ_not_In Z.eq_dec) in Hn. unfold cd_enter. split; cbn [sh_dirs sh_text length]; [now constructor|].
    destruct (sh_text sh) as [|c t] eqn:E.
    - cbn [app]. unfold parts. destruct (units (fn_name fn)); [lia|]. rewrite Hn. lia.
    - unfold parts in *. rewrite <- app_assoc. cbn [app]. rewrite app_comm_cons, count_occ_app. cbn [count_occ] in *. rewrite Hn. destruct (Z.eq_dec 92 92); [|lia]. destruct (Z.eq_dec c 92); lia.
  Qed.
  Lemma current_np sh : gshell sh -> np sfile (current_dir sh).
  Proof. intros [H1 H2]. unfold current_dir. destruct H1; cbn in *; [lia|auto]. Qed.

  Definition gopen (ix : index) : Prop := gindex0 nt ix /\ tame_index nt img ix /\
    forall j n d1 e, d_img d1 = img -> In (Some (Ok e)) (iterate (with_dev (entries_next j nt ix)) n (index_entries ix, d1)) -> ie_key_length e <> Ok 0.
  Lemma directory_np k f : sfile f -> npm img gopen (directory_index k nt f).
  Proof.
    intros (Hs & Hf). eapply npm_weak; [apply npm_from; exact (directory_index_np nt img U k f Hf)|]. intros ix (H1 & d & d' & Hd & E). split; auto. exact (Td f k d d' ix Hs Hd E).
  Qed.
  Lemma entry_file_np e : gentry e -> npm img (fun f => sfile f) (ie_to_file nt e).
  Proof.
    intros He. destruct (gentry_of e (gentry_slice e He)) as (_ & _ & _ & E4 & _). unfold ie_to_file. apply (npm_try img _ _ _ _ E4). intros r _ Hr.
    eapply npm_weak; [apply file_np; now apply fr_number_nonneg|]. intros f (H & _). exact H.
  Qed.
  Lemma find_np k ix name d : gopen ix -> Forall unit_ok name -> d_img d = img ->
    let '(d', x) := file_name_find k nt ix name d in d_img d' = img /\ match x with None => True | Some r => np (fun e => gentry e /\ ie_key fn_from_slice e <> None) r end.
  Proof. intros (H1 & H2 & _) Hn Hd. exact (file_name_find_np nt img U ix H1 H2 k name d Hn Ht Hd). Qed.
  Definition gfound (x : answer file) : Prop := match x with Done f => sfile f | Said _ => True end.
  Lemma parse_file_arg_np k sh arg : gshell sh -> Forall unit_ok arg -> npm img gfound (parse_file_arg k nt sh arg).
  Proof.
    intros Hsh Ha. unfold parse_file_arg. destruct arg as [|c t]; [apply npm_lift; exact Logic.I|]. destruct (c =? 47).
    { destruct (parse_number t) as [n|] eqn:En; [|apply npm_lift; exact Logic.I]. eapply npm_bind; [apply file_np; exact (parse_number_nonneg _ _ En)|]. intros f (H & _). apply npm_lift. exact H. }
    apply (npm_try img _ _ _ _ (current_np sh Hsh)). intros dir _ Hdir. eapply npm_bind; [apply directory_np; exact Hdir|]. intros ix Hix d Hd.
    pose proof (find_np k ix (c :: t) d Hix Ha Hd) as F. destruct (file_name_find k nt ix (c :: t) d) as [d1 x]. destruct F as (F1 & F2).
    destruct x as [[e|e| |]|]; cbn in F2; try (split; auto; exact Logic.I); try contradiction. destruct F2 as (F2 & _).
    refine (npm_bind img _ _ _ _ (entry_file_np e F2) _ d1 F1). intros f Hf. apply npm_lift. exact Hf.
  Qed.
  Lemma first_name_np k f parent l : sfile f -> npm img (fun x => match x with Done fn => ~ In 92 (units (fn_name fn)) | Said _ => True end) (first_file_name k nt f parent l).
  Proof.
    intros (Hs & Hf). induction l as [|ns l IH]; cbn [first_file_name]; [apply npm_lift; exact Logic.I|].
    eapply npm_bind; [apply npm_from; exact (file_name_of_np nt img U k f ns (Some parent) Hf)|]. intros [fn|] (_ & d & d' & Hd & E); [|exact IH]. apply npm_lift. exact (Pf f k ns (Some parent) d d' fn Hs Hd E).
  Qed.
  Lemma cd_np k sh arg : gshell sh -> Forall unit_ok arg -> npm img (fun x => match x with Done sh' => gshell sh' | Said _ => True end) (cd k nt sh arg).
  Proof.
    intros Hsh Ha. unfold cd. destruct arg as [|c t]; [apply npm_lift; exact Hsh|]. destruct (list_eqb _ _); [apply npm_lift; now apply cd_up_good|].
    apply (npm_try img _ _ _ _ (current_np sh Hsh)). intros dir _ Hdir. eapply npm_bind; [apply directory_np; exact Hdir|]. intros ix Hix d Hd.
    pose proof (find_np k ix (c :: t) d Hix Ha Hd) as F. destruct (file_name_find k nt ix (c :: t) d) as [d1 x]. destruct F as (F1 & F2).
    destruct x as [[e|e| |]|]; cbn in F2; try (split; auto; exact Logic.I); try contradiction. destruct F2 as (F2 & F3).
    destruct (gentry_of e (gentry_slice e F2)) as (_ & _ & _ & _ & E5). specialize (E5 _ fn_from_slice _ fn_from_slice_np).
    destruct (ie_key fn_from_slice e) as [[key|x| |]|]; cbn in E5; try (split; auto; exact Logic.I); try contradiction.
    destruct (negb _); [split; auto; exact Logic.I|].
    refine (npm_bind img _ _ _ _ (entry_file_np e F2) _ d1 F1). intros f Hf. eapply npm_bind; [apply first_name_np; exact Hf|]. intros [fn|m] Hn; apply npm_lift; [|exact Logic.I].
    now apply cd_enter_good.
  Qed.

  (** [dir] *)
  Lemma dir_loop_np k j ix : gopen ix -> forall st acc d, gstack (es_iters st) (es_following st) -> d_img d = img ->
    (forall n d1 e, d_img d1 = img -> d1 = d -> In (Some (Ok e)) (iterate (with_dev (entries_next k nt ix)) n (st, d1)) -> ie_key_length e <> Ok 0) ->
    let '(d', (_, x)) := dir_loop k j nt ix st acc d in d_img d' = img /\ np (fun _ => True) x.
  Proof.
    intros (G1 & G2 & _). induction j as [|j IH]; intros st acc d Hst Hd Hk; cbn [dir_loop]; [split; auto; exact Logic.I|].
    pose proof (entries_next_np nt img U ix G1 G2 k st d Hst Hd) as H. destruct (entries_next k nt ix st d) as [d1 [st1 x]] eqn:E. destruct H as (H1 & H2 & H3).
    destruct x as [[e|e| |]|]; cbn in H3; try (split; auto; exact Logic.I); try contradiction.
    destruct H3 as (H3 & H4). destruct (gentry_of e (gentry_slice e H3)) as (_ & E2 & E3 & _ & E5). specialize (E5 _ fn_from_slice _ fn_from_slice_np).
    assert (Hke : ie_key_length e <> Ok 0). { apply (Hk 1%nat d e Hd eq_refl). cbn [iterate]. unfold with_dev. cbn [fst snd]. rewrite E. now left. }
    destruct (ie_key fn_from_slice e) as [[key|x| |]|] eqn:Ek; cbn in E5; try (split; auto; exact Logic.I); try contradiction.
    - apply IH; auto. intros n d2 e' Hd2 -> Hin. apply (Hk (S n) d e' Hd eq_refl). cbn [iterate]. unfold with_dev at 1. cbn [fst snd]. rewrite E. now right.
    - exfalso. unfold ie_key in Ek. rewrite H4 in Ek. destruct (ie_key_length e) as [kl|x| |]; try discriminate. destruct (kl =? 0) eqn:E0; [apply Hke; f_equal; lia|].
      destruct (get_range _ _ _); discriminate.
  Qed.

  (** [get] *)
  Lemma get_loop_np k j : forall v acc d, gav nt v -> d_img d = img -> let '(d', (_, x)) := get_loop k j v acc d in d_img d' = img /\ np (fun _ => True) x.
  Proof.
    induction j as [|j IH]; intros v acc d Hv Hd; cbn [get_loop]; [split; auto; exact Logic.I|].
    pose proof (av_nreads nt img U k v 4096 d Hv Hd ltac:(lia)) as R. destruct (av_read k v 4096 d) as [d1 [v1 x]]. destruct R as (R1 & R2 & R3).
    destruct x as [bs|e| |]; cbn in R3; try (split; auto; fail). destruct (_ =? 0); [split; auto; exact Logic.I|]. now apply IH.
  Qed.
  Lemma split_colon_ok l : Forall unit_ok l -> Forall unit_ok (fst (split_colon l)) /\ Forall unit_ok (snd (split_colon l)).
  Proof.
    induction l as [|c t IH]; intros H; cbn [split_colon]; [auto|]. inversion H as [|? ? H2 H3]; subst. destruct (IH H3) as (I1 & I2). destruct (c =? 58); [cbn; auto|]. destruct (split_colon t) as [a b]. cbn [fst snd] in *. split; [now constructor|exact I2].
  Qed.
  Lemma get_np k sh arg d : gshell sh -> Forall unit_ok arg -> d_img d = img -> let '(d', (_, x)) := get k nt sh arg d in d_img d' = img /\ np (fun _ => True) x.
  Proof.
    intros Hsh Ha Hd. unfold get. assert (G : npm img (fun x => match x with Done v => gav nt v | Said _ => True end) (get_value k nt sh arg)).
    { unfold get_value. destruct (split_colon_ok arg Ha) as (S1 & S2). destruct (split_colon arg) as [nm st]. cbn [fst snd] in *.
      eapply npm_bind; [apply parse_file_arg_np; auto|]. intros [f|m] Hf; [|apply npm_lift; exact Logic.I]. destruct Hf as (_ & Hf).
      eapply npm_bind; [apply (file_data_np nt img U); auto; right; auto|]. intros [i|] Hi; [|apply npm_lift; exact Logic.I].
      apply (npm_try img (gany nt)); [exact (Hi i eq_refl)|]. intros a _ Hga. eapply npm_bind; [apply (attr_value_np nt img U); auto|]. intros v Hv. apply npm_lift. exact Hv. }
    destruct (G d Hd) as (G1 & G2). destruct (get_value k nt sh arg d) as [d1 x]. cbn [fst snd] in G1, G2. destruct x as [[v|m]|e| |]; cbn in G2; try (split; auto; exact Logic.I); try contradiction.
    pose proof (get_loop_np k k v [] d1 G2 G1) as L. destruct (get_loop k k v [] d1) as [d2 [bs r]]. destruct L as (L1 & L2). split; auto. destruct r; cbn in *; auto.
  Qed.

  (** [attr] *)
  Lemma run_lines_np j c data p inner : forall i s ss, nr_sane true (mkNrv c data p s ss) -> npp img (fun _ => True) (run_lines j c data p inner i s).
  Proof.
    induction j as [|j IH]; intros i s ss Hv; cbn [run_lines]; [apply npp_lift; exact Logic.I|].
    destruct (nr_next_data_run (mkNrv c data p s ss)) as [v x] eqn:E. destruct (nr_next_sane true _ _ _ Hv E) as (N1 & N2 & _).
    unfold nr_next_data_run in E. cbn [nv_cs nv_data nv_position nv_runs nv_ss] in E. destruct (druns_next c data p s) as [s' it] eqn:En.
    destruct it as [[r|e| |]|]; injection E as <- <-.
    - apply (npp_bind img (fun _ => True)); [apply npp_lift; exact Logic.I|]. intros r' _. apply (npp_bind img (fun _ => True)); [apply npp_print|]. intros _ _. exact (IH _ _ _ N1).
    - apply (npp_bind img (fun _ => True)); [apply npp_lift; exact Logic.I|]. intros r _. apply (npp_bind img (fun _ => True)); [apply npp_print|]. intros _ _. exact (IH _ _ _ N1).
    - discriminate N2 || now destruct N2.
    - apply (npp_bind img (fun _ => True)); [apply npp_lift; exact Logic.I|]. intros r _. apply (npp_bind img (fun _ => True)); [apply npp_print|]. intros _ _. exact (IH _ _ _ N1).
    - apply npp_ret. exact Logic.I.
  Qed.
  Lemma attr_print_np k runs inner n a : gany nt a -> npp img (fun _ => True) (attr_print k nt runs inner n a).
  Proof.
    intros Ha. destruct (gattr_basic cs a (proj1 Ha)) as (B1 & B2 & B3 & B4 & B5 & b & B6 & _). unfold attr_print. rewrite B4, B6.
    apply (npp_bind img (fun _ => True)); [apply npp_lift; exact Logic.I|]. intros inst _. apply (npp_bind img (fun _ => True)); [apply npp_lift; exact B1|]. intros ty _.
    apply (npp_bind img (fun _ => True)); [apply npp_lift; exact Logic.I|]. intros res _. apply (npp_bind img (fun _ => True)); [apply npp_lift; exact (gattr_length cs a (proj1 Ha))|]. intros len _.
    apply (npp_bind img (fun _ => True)); [apply npp_lift; exact B2|]. intros nm _. apply (npp_bind img (fun _ => True)); [apply npp_print|]. intros _ _.
    destruct runs; [|apply npp_ret; exact Logic.I]. apply (npp_bind img (gav nt)); [apply npp_m; exact (attr_value_np nt img U a Ha)|]. intros v Hv.
    destruct v as [[r|x]|l]; try (apply npp_ret; exact Logic.I). apply (run_lines_np k (nv_cs x) (nv_data x) (nv_position x) inner 0 druns_start (nv_ss x)).
    destruct Hv as [H1 H2 H3 H4 H5 H6 H7]. split; cbn; auto; unfold U64_MAX; lia.
  Qed.
  Lemma list_lines_np k j runs self : forall l, galist l -> npp img (fun _ => True) (list_lines k j nt runs self l).
  Proof.
    induction j as [|j IH]; intros l Hl d Hd; cbn [list_lines]; [split; auto; exact Logic.I|].
    pose proof (alist_next_np nt img U l d Hl Hd) as A. destruct (alist_next l d) as [d1 [l1 x]]. destruct A as (A1 & A2 & A3). destruct x as [x|]; [|split; auto; exact Logic.I].
    refine (npp_bind img _ _ _ _ (npp_lift img entry_ok x A3) _ d1 A1). intros e (_ & He). destruct (_ =? self); [exact (IH l1 A2)|].
    eapply npp_bind; [apply npp_m; exact (file_np (le_number e) He)|]. intros f ((_ & Hf) & Hn). eapply npp_bind; [apply npp_lift; exact (le_to_attribute_np nt img U e f Hf Hn)|].
    intros a (_ & Ha & Hg). apply (npp_bind img (fun _ => True)); [|intros _ _; exact (IH l1 A2)]. apply attr_print_np. split; auto. intros l2 E. congruence.
  Qed.
  Lemma attr_loop_np k j runs f : gfile cs f -> forall s, walks cs (f_data f) s -> npp img (fun _ => True) (attr_loop k j nt runs f s).
  Proof.
    intros Hf. induction j as [|j IH]; intros s Hs; cbn [attr_loop]; [apply npp_lift; exact Logic.I|].
    pose proof (raw_next_np cs f s (proj1 Hf) Hs) as R. destruct (raw_next f s) as [s' x]. destruct R as (R1 & R2). destruct x as [x|]; [|apply npp_ret; exact Logic.I].
    eapply npp_bind; [apply npp_lift; exact R2|]. intros a (-> & Ha). destruct (gattr_basic cs _ Ha) as (B1 & _).
    apply (npp_bind img (fun _ => True)); [apply npp_lift; exact B1|]. intros ty _. apply (npp_bind img (fun _ => True)); [apply attr_print_np; split; auto; intros l E; discriminate|]. intros _ _.
    apply (npp_bind img (fun _ => True)); [|intros _ _; exact (IH s' R1)]. destruct (_ =? _); [|apply npp_ret; exact Logic.I].
    eapply npp_bind; [apply npp_lift; exact (gattr_value cs _ (us_cs nt img U) Ha)|]. intros v Hv. apply list_lines_np. now apply alist_of_sval_np.
  Qed.

  (** [fileinfo] *)
  Lemma standard_line_np a : gattr cs a -> npp img (fun _ => True) (standard_line a).
  Proof.
    intros Ha. unfold standard_line, resident_structured. apply (npp_bind img times_ok).
    { apply npp_lift. apply (np_bind res_calm); [exact (gattr_resident_structured cs a _ Ha)|]. intros v _ Hv. apply from_resident_np; auto. intros im. apply si_new_np. }
    intros v (T1 & T2 & T3 & T4). rewrite !datetime_of_time by auto.
    repeat (apply (npp_bind img (fun _ => True)); [apply npp_lift; exact Logic.I|]; intros ? _). apply npp_print.
  Qed.
  Lemma attribute_info_np k a : gany nt a -> npp img (fun _ => True) (attribute_info k nt a).
  Proof.
    intros Ha. destruct (gattr_basic cs a (proj1 Ha)) as (B1 & B2 & _). unfold attribute_info. destruct (attr_ty a) as [ty|e| |]; cbn in B1; try contradiction; try (apply npp_ret; exact Logic.I); [|apply npp_lift; exact Logic.I].
    destruct (ty =? _); [exact (standard_line_np a (proj1 Ha))|]. destruct (ty =? _); [|destruct (ty =? _); [|apply npp_ret; exact Logic.I]].
    - unfold name_line. eapply npp_bind; [apply npp_m; apply (attr_structured_np nt img U); [apply fn_new_np|exact Ha]|]. intros fn (Hfn & _). unfold fn_namespace. replace (_ <=? 3) with true by lia.
      apply (npp_bind img (fun _ => True)); [apply npp_lift; exact Logic.I|]. intros ns _. apply npp_print.
    - unfold stream_line. apply (npp_bind img (fun _ => True)); [apply npp_lift; exact B2|]. intros nm _. apply (npp_bind img (fun _ => True)); [apply npp_lift; exact (gattr_length cs a (proj1 Ha))|]. intros len _. apply npp_print.
  Qed.
  Lemma info_loop_np k j : forall st, gattrs nt st -> npp img (fun _ => True) (info_loop k j nt st).
  Proof.
    induction j as [|j IH]; intros st Hst d Hd; cbn [info_loop]; [split; auto; exact Logic.I|].
    pose proof (attrs_next_np nt img U k st d Hst Hd) as A. destruct (attrs_next k nt st d) as [d1 [st1 x]]. destruct A as (A1 & A2 & A3). destruct x as [x|]; [|split; auto; exact Logic.I].
    refine (npp_bind img _ _ _ _ (npp_lift img (gitem nt) x A3) _ d1 A1). intros i Hi. eapply npp_bind; [apply npp_lift; exact Hi|]. intros a Ha.
    apply (npp_bind img (fun _ => True)); [now apply attribute_info_np|]. intros _ _. exact (IH st1 A2).
  Qed.
  Lemma record_line_np f : gfile cs f -> npp img (fun _ => True) (record_line f).
  Proof.
    intros (H1 & H2 & _). unfold record_line, f_allocated_size, f_data_size, f_hard_link_count, f_is_directory, f_flags, f_sequence_number, rd_u32, rd_u16. rewrite !rd_in by lia. cbn [rbind].
    repeat (apply (npp_bind img (fun _ => True)); [apply npp_lift; exact Logic.I|]; intros ? _). apply npp_print.
  Qed.

  (** Commands *)
  Lemma command_np k sh c d : gshell sh -> texts_ok c -> d_img d = img ->
    let '(d', (sh', r)) := run_command k nt sh c d in d_img d' = img /\ gshell sh' /\ re_outcome r <> Panic.
  Proof.
    intros Hsh Hc Hd. unfold run_command. destruct c as [arg| |arg|runs arg|arg| |arg| |cmd]; cbn in Hc.
    - destruct (cd_np k sh arg Hsh Hc d Hd) as (C1 & C2). destruct (cd k nt sh arg d) as [d1 x]. cbn [fst snd] in C1, C2. destruct x as [[sh1|m]|e| |]; cbn in C2; try contradiction; splits; auto; cbn; discriminate.
    - unfold dir. assert (D : npm img gopen (try f <- current_dir sh; directory_index k nt f)).
      { apply (npm_try img _ _ _ _ (current_np sh Hsh)). intros f _ Hf. now apply directory_np. }
      destruct (D d Hd) as (D1 & D2). destruct ((try f <- current_dir sh; directory_index k nt f) d) as [d1 x]. cbn [fst snd] in D1, D2.
      destruct x as [ix|e| |]; cbn in D2; try contradiction; try (splits; auto; cbn; discriminate). pose proof D2 as (I1 & I2 & I3).
      pose proof (dir_loop_np k k ix D2 (index_entries ix) [] d1 (entries_start_np nt img ix I1 I2) D1) as L. destruct (dir_loop k k nt ix (index_entries ix) [] d1) as [d2 [ls r]].
      destruct L as (L1 & L2). { intros n d3 e Hd3 _. exact (I3 k n d3 e Hd3). } splits; auto. cbn. destruct r; cbn in *; auto; discriminate.
    - pose proof (get_np k sh arg d Hsh Hc Hd) as G. destruct (get k nt sh arg d) as [d1 [bs r]]. destruct G as (G1 & G2). splits; auto. exact (np_not _ _ G2).
    - assert (A : npp img (fun _ => True) (attr k nt sh runs arg)).
      { unfold attr. eapply npp_bind; [apply npp_m; now apply parse_file_arg_np|]. intros [f|m] Hf; [|apply npp_ret; exact Logic.I]. apply (npp_bind img (fun _ => True)); [|intros _ _; apply npp_ret; exact Logic.I].
        unfold attr_file. destruct Hf as (_ & Hf). eapply npp_bind; [apply npp_lift; exact (raw_start_np cs f Hf)|]. intros s Hs. now apply attr_loop_np. }
      specialize (A d Hd). destruct (attr k nt sh runs arg d) as [d1 [ls r]]. destruct A as (A1 & A2). splits; auto. exact (np_not _ _ A2).
    - assert (A : npp img (fun _ => True) (fileinfo k nt sh arg)).
      { unfold fileinfo. eapply npp_bind; [apply npp_m; now apply parse_file_arg_np|]. intros [f|m] Hf; [|apply npp_ret; exact Logic.I]. apply (npp_bind img (fun _ => True)); [|intros _ _; apply npp_ret; exact Logic.I].
        unfold fileinfo_file. destruct Hf as (_ & Hf). apply (npp_bind img (fun _ => True)); [now apply record_line_np|]. intros _ _. eapply npp_bind; [apply npp_lift; exact (attrs_start_np nt f Hf)|]. intros st Hst. now apply info_loop_np. }
      specialize (A d Hd). destruct (fileinfo k nt sh arg d) as [d1 [ls r]]. destruct A as (A1 & A2). splits; auto. exact (np_not _ _ A2).
    - assert (A : npp img (fun _ => True) (fsinfo nt)).
      { unfold fsinfo. apply (npp_bind img (fun _ => True)); [apply npp_print|]. intros _ _.
        apply (npp_bind img (fun _ => True)). { apply npp_m. unfold volume_info. eapply npm_bind; [apply (file_np 3); lia|]. intros f ((_ & Hf) & _). apply npm_lift. apply (find_structured_np nt); auto. intros im. apply vi_new_np. }
        intros v _. apply (npp_bind img (fun _ => True)); [apply npp_print|]. intros _ _. apply (npp_bind img (fun _ => True)); [apply npp_print|]. intros _ _.
        intros d1 Hd1. unfold label_line, volume_name. destruct (file_np 3 ltac:(lia) d1 Hd1) as (F1 & F2). destruct (ntfs_file nt 3 d1) as [d2 x]. cbn [fst snd] in F1, F2.
        destruct x as [f|e| |]; cbn in F2; try contradiction; try (split; auto; exact Logic.I). destruct F2 as ((_ & Hf) & _).
        pose proof (find_structured_np nt (fun _ => True) vn_new TY_VolumeName f None (fun im => vn_new_np im res_calm) Hf) as N. destruct (find_structured vn_new TY_VolumeName f None) as [nm|[]| |]; cbn in N; try contradiction; (split; [exact F1|exact Logic.I]). }
      specialize (A d Hd). destruct (fsinfo nt d) as [d1 [ls r]]. destruct A as (A1 & A2). splits; auto. cbn. destruct r; cbn in *; auto; discriminate.
    - splits; auto. discriminate.
    - splits; auto. discriminate.
    - splits; auto. discriminate.
  Qed.
  Lemma commands_np k cmds : forall sh d, gshell sh -> Forall texts_ok cmds -> d_img d = img -> Forall (fun p => re_outcome (fst p) <> Panic) (run_commands k nt sh cmds d).
  Proof.
    induction cmds as [|c t IH]; intros sh d Hsh Hc Hd; cbn [run_commands]; [constructor|]. inversion Hc as [|? ? C1 C2]; subst.
    pose proof (command_np k sh c d Hsh C1 Hd) as H. destruct (run_command k nt sh c d) as [d1 [sh1 r]]. destruct H as (H1 & H2 & H3). constructor; [exact H3|].
    destruct (re_outcome r); try constructor; auto.
  Qed.
End Shell.

Lemma opened_np d : bytes_ok (d_img d) -> d_img (fst (ntfs_new d)) = d_img d /\ np (fun nt => exists d' d'', d_img d' = d_img d /\ ntfs_new d' = (d'', Ok nt)) (snd (ntfs_new d)).
Proof.
  intros Hd. destruct (ntfs_new_evolves d) as (Ev & _). split; [exact Ev|]. apply np_ok.
  - pose proof (ntfs_new_calm d Hd) as C. destruct (ntfs_new d) as [d' x] eqn:E. cbn [snd]. intros ->. clear C. unfold ntfs_new, mbind in E. destruct (dev_seek 0 d) as [d1 y] eqn:E1. pose proof (dev_seek_evolves 0 d) as Ev1. rewrite E1 in Ev1. cbn [fst] in Ev1.
    assert (Hs : y = Ok tt /\ d_pos d1 = 0 \/ exists e, y = Err (EIo e)).
    { unfold dev_seek in E1. destruct (d_seeks d) as [|[e|] t]; injection E1 as <- <-; cbn; [left|right|left]; eauto. }
    destruct Hs as [(-> & P1)|(e & ->)]; [|discriminate].
    destruct (dev_read_exact_np (d_img d) 512 Hd ltac:(lia) d1 (proj1 Ev1) ltac:(lia)) as (_ & R2). destruct (dev_read_exact 512 d1) as [d2 z]. cbn [snd] in R2.
    destruct z as [data|e| |]; cbn in R2; try discriminate; try contradiction. destruct R2 as (R2 & R3). unfold mlift in E. assert (En : ntfs_of_boot (decode_boot data) = Panic) by congruence.
    pose proof (ntfs_of_boot_spec data R3 R2) as B. rewrite En in B. exact B.
  - intros nt E. exists d, (fst (ntfs_new d)). split; auto. rewrite <- E. apply surjective_pairing.
Qed.
Lemma session_np k cmds d : tame_image (d_img d) -> Forall texts_ok cmds ->
  session k cmds d <> Panic /\ forall l, session k cmds d = Ok l -> Forall (fun p => re_outcome (fst p) <> Panic) l.
Proof.
  intros (Hb & T) Hc. unfold session.
  assert (O : npm (d_img d) (fun x => exists d1 d2 nt0 t, d_img d1 = d_img d /\ ntfs_new d1 = (d2, Ok nt0) /\ fst x = with_table nt0 (Some t) /\ zlen t = 65536 /\ gshell (fst x) (d_img d) (snd x)) (shell_open k)).
  { unfold shell_open. apply (npm_bind (d_img d) (fun nt => exists d1 d2, d_img d1 = d_img d /\ ntfs_new d1 = (d2, Ok nt))).
    { intros d0 H0. rewrite <- H0. apply opened_np. now rewrite H0. }
    intros nt0 (d1 & d2 & Hd1 & E1). assert (Op : forall t, usable (with_table nt0 t) (d_img d)).
    { intros t. apply usable_of; [exists d1, d2, nt0, t; splits; auto; now rewrite Hd1|]. exact (proj1 (T d1 d2 nt0 t Hd1 E1)). }
    assert (E0 : nt0 = with_table nt0 (upcase_table nt0)) by (destruct nt0; reflexivity).
    apply (npm_bind (d_img d) (fun nt => exists t, nt = with_table nt0 (Some t) /\ zlen t = 65536)).
    { unfold read_upcase_table. eapply npm_bind; [rewrite E0; exact (upcase_read_np _ _ (Op _) k)|]. intros t Hl. apply npm_lift. exists t. split; auto. }
    intros nt (t & -> & Hl). eapply npm_bind; [apply (file_np _ _ (Op (Some t)) 5); lia|]. intros root (Hr & _). apply npm_lift. exists d1, d2, nt0, t. splits; auto. cbn [snd]. split; cbn; auto. }
  destruct (O d eq_refl) as (O1 & O2). destruct (shell_open k d) as [d1 x]. cbn [fst snd] in O1, O2. destruct x as [[nt sh]|e| |]; cbn in O2; try contradiction; (split; [discriminate|]); try discriminate.
  intros l [= <-]. destruct O2 as (d2 & d3 & nt0 & t & Hd2 & E & -> & Hl & Hsh). destruct (T d2 d3 nt0 (Some t) Hd2 E) as (T1 & T2 & T3).
  apply (commands_np _ (d_img d)); auto; [|exists t; split; auto; reflexivity]. apply usable_of; auto. exists d2, d3, nt0, (Some t). splits; auto. now rewrite Hd2.
Qed.

(** ** The claims *)
Section Claims.
  Context (nt : ntfs) (img : list Z) (O : opened nt) (T : tame_volume nt img).
  Notation cs := (cluster_size nt).
  Let U : usable nt img := usable_of nt img O T.

  Lemma read_good f : read_on nt img f -> gfile cs f /\ seen nt img f.
  Proof.
    intros (n & d & d' & Hn & Hd & E). pose proof (proj2 (ntfs_file_np nt img U n Hn d Hd)) as H. rewrite E in H. destruct H as (H & _). split; auto. right. exists n, d, d'. auto.
  Qed.
  Lemma file_calm n d : 0 <= n -> d_img d = img -> snd (ntfs_file nt n d) <> Panic.
  Proof. intros Hn Hd. exact (np_not _ _ (proj2 (ntfs_file_np nt img U n Hn d Hd))). Qed.
  Lemma table_calm k d : d_img d = img -> snd (read_upcase_table k nt d) <> Panic.
  Proof. intros Hd. assert (K : npm img (fun _ => True) (read_upcase_table k nt)). { unfold read_upcase_table. eapply npm_bind; [exact (upcase_read_np nt img U k)|]. intros t _. apply npm_lift. exact Logic.I. } exact (np_not _ _ (proj2 (K d Hd))). Qed.
  Lemma raw_calm f : read_on nt img f -> raw_start f <> Panic /\
    forall s n, raw_start f = Ok s -> Forall (fun x => x <> Some Panic /\ forall a, x = Some (Ok a) -> value_calm nt img a) (iterate (raw_next f) n s).
  Proof.
    intros Hf. destruct (read_good f Hf) as (Gf & _). pose proof (raw_start_np cs f Gf) as R. split; [exact (np_not _ _ R)|]. intros s n E. rewrite E in R. cbn in R. clear E. revert s R.
    induction n as [|n IH]; intros s R; cbn [iterate]; [constructor|]. pose proof (raw_next_np cs f s (proj1 Gf) R) as H. destruct (raw_next f s) as [s' x]. destruct H as (H1 & H2). constructor; [|now apply IH].
    split; [intros ->; exact H2|]. intros a ->. destruct H2 as (-> & H2). apply (value_calm_of nt img U). split; auto. intros l [=].
  Qed.
  Lemma attributes_calm f : read_on nt img f -> attrs_start f <> Panic /\
    forall st k n d, attrs_start f = Ok st -> d_img d = img -> Forall (fun x => x <> Some Panic /\ forall i, x = Some (Ok i) -> item_calm nt img i) (iterate (with_dev (attrs_next k nt)) n (st, d)).
  Proof.
    intros Hf. destruct (read_good f Hf) as (Gf & _). pose proof (attrs_start_np nt f Gf) as R. split; [exact (np_not _ _ R)|]. intros st k n d E. rewrite E in R. cbn in R. clear E. revert st d R.
    induction n as [|n IH]; intros st d R Hd; cbn [iterate]; [constructor|]. unfold with_dev at 1. cbn [fst snd]. pose proof (attrs_next_np nt img U k st d R Hd) as H. destruct (attrs_next k nt st d) as [d' [st' x]].
    destruct H as (H1 & H2 & H3). constructor; [|now apply IH]. split; [intros ->; exact H3|]. intros i ->. now apply (item_calm_of nt img U).
  Qed.
  Lemma list_calm f s m a v : read_on nt img f -> raw_start f = Ok s -> In (Some (Ok a)) (iterate (raw_next f) m s) -> attr_value_simple cs a = Ok v ->
    forall n d, d_img d = img -> Forall (fun x => x <> Some Panic /\ forall e, x = Some (Ok e) -> list_entry_calm nt img e) (iterate (with_dev alist_next) n (alist_of_sval v, d)).
  Proof.
    intros Hf Es Hin Ev. destruct (read_good f Hf) as (Gf & _). pose proof (raw_start_np cs f Gf) as R. rewrite Es in R. cbn in R. clear Es.
    assert (Ga : gattr cs a). { revert s R Hin. induction m as [|m IH]; intros s R; cbn [iterate]; [intros []|]. pose proof (raw_next_np cs f s (proj1 Gf) R) as H. destruct (raw_next f s) as [s' x]. destruct H as (H1 & H2).
      intros [->|Hin]; [exact (proj2 H2)|exact (IH s' H1 Hin)]. }
    pose proof (gattr_value cs a (us_cs nt img U) Ga) as V. rewrite Ev in V. cbn in V. apply alist_of_sval_np in V. clear Ev. revert V. generalize (alist_of_sval v). intros l Hl n. revert l Hl.
    induction n as [|n IH]; intros l Hl d Hd; cbn [iterate]; [constructor|]. unfold with_dev at 1. cbn [fst snd]. pose proof (alist_next_np nt img U l d Hl Hd) as H. destruct (alist_next l d) as [d' [l' x]].
    destruct H as (H1 & H2 & H3). constructor; [|now apply IH]. split; [intros ->; exact H3|]. intros e ->. destruct H3 as (_ & He). split; [exact (np_not _ _ (le_ty_np e))|].
    intros d1 Hd1. split; [exact (file_calm _ d1 He Hd1)|]. intros d2 f2 E2. pose proof (proj2 (ntfs_file_np nt img U (le_number e) He d1 Hd1)) as F. unfold le_to_file in E2. rewrite E2 in F. destruct F as (F1 & F2).
    pose proof (le_to_attribute_np nt img U e f2 F1 F2) as A. split; [exact (np_not _ _ A)|]. intros a2 E3. rewrite E3 in A. destruct A as (_ & A1 & A2). apply (value_calm_of nt img U). split; auto. intros l2 E. congruence.
  Qed.
  Lemma searches_calm f k d : read_on nt img f -> d_img d = img ->
    (forall ty name, snd (find_attribute k nt f ty name d) <> Panic /\ forall d' i, find_attribute k nt f ty name d = (d', Ok i) -> item_calm nt img i) /\
    (forall stream, (stream = [] \/ Forall unit_ok stream /\ has_table nt) ->
       snd (file_data k nt f stream d) <> Panic /\ forall d' i, file_data k nt f stream d = (d', Ok (Some i)) -> item_calm nt img i) /\
    (forall ns parent, snd (file_name_of k nt f ns parent d) <> Panic) /\
    file_info f <> Panic.
  Proof.
    intros Hf Hd. destruct (read_good f Hf) as (Gf & _). split; [|split; [|split]].
    - intros ty name. pose proof (proj2 (find_attribute_np nt img U k f ty name Gf d Hd)) as H. split; [exact (np_not _ _ H)|]. intros d' i E. rewrite E in H. now apply (item_calm_of nt img U).
    - intros stream Hc. pose proof (proj2 (file_data_np nt img U k f stream Gf Hc d Hd)) as H. split; [exact (np_not _ _ H)|]. intros d' i E. rewrite E in H. apply (item_calm_of nt img U). now apply H.
    - intros ns parent. exact (np_not _ _ (proj2 (file_name_of_np nt img U k f ns parent Gf d Hd))).
    - eapply np_not. apply (find_structured_np nt); [intros im; apply si_new_np|exact Gf].
  Qed.
  Lemma volume_calm d : d_img d = img -> snd (volume_info nt d) <> Panic /\ snd (volume_name nt d) <> Some Panic.
  Proof.
    intros Hd. split.
    - assert (K : npm img (fun _ => True) (volume_info nt)). { unfold volume_info. eapply npm_bind; [apply (ntfs_file_np nt img U 3); lia|]. intros f (Hf & _). apply npm_lift. apply (find_structured_np nt); auto. intros im. apply vi_new_np. }
      exact (np_not _ _ (proj2 (K d Hd))).
    - unfold volume_name. pose proof (proj2 (ntfs_file_np nt img U 3 ltac:(lia) d Hd)) as F2. destruct (ntfs_file nt 3 d) as [d2 x]. cbn [snd] in F2.
      destruct x as [f|e| |]; cbn in F2; try contradiction; try discriminate. destruct F2 as (Hf & _).
      pose proof (find_structured_np nt (fun _ => True) vn_new TY_VolumeName f None (fun im => vn_new_np im res_calm) Hf) as N. destruct (find_structured vn_new TY_VolumeName f None) as [nm|[]| |]; cbn in N; try contradiction; discriminate.
  Qed.
  Lemma directory_calm f k d : read_on nt img f -> d_img d = img -> snd (directory_index k nt f d) <> Panic /\
    forall d' ix, directory_index k nt f d = (d', Ok ix) -> tame_index nt img ix ->
      (forall j n d1, d_img d1 = img -> Forall (fun x => x <> Some Panic /\ forall e, x = Some (Ok e) -> entry_calm nt img e) (iterate (with_dev (entries_next j nt ix)) n (index_entries ix, d1))) /\
      (forall j name d1, d_img d1 = img -> Forall unit_ok name -> has_table nt ->
         snd (file_name_find j nt ix name d1) <> Some Panic /\ forall d2 e, file_name_find j nt ix name d1 = (d2, Some (Ok e)) -> entry_calm nt img e).
  Proof.
    intros Hf Hd. destruct (read_good f Hf) as (Gf & _). pose proof (proj2 (directory_index_np nt img U k f Gf d Hd)) as H. split; [exact (np_not _ _ H)|]. intros d' ix E Tx. rewrite E in H. cbn in H. split.
    - intros j n d1 Hd1. pose proof (entries_start_np nt img ix H Tx) as S. revert S d1 Hd1. generalize (index_entries ix). induction n as [|n IH]; intros st S d1 Hd1; cbn [iterate]; [constructor|].
      unfold with_dev at 1. cbn [fst snd]. pose proof (entries_next_np nt img U ix H Tx j st d1 S Hd1) as N. destruct (entries_next j nt ix st d1) as [d2 [st' x]]. destruct N as (N1 & N2 & N3).
      constructor; [|now apply IH]. split; [intros ->; exact N3|]. intros e ->. apply (entry_calm_of nt img U). exact (proj1 N3).
    - intros j name d1 Hd1 Hn Ht. pose proof (file_name_find_np nt img U ix H Tx j name d1 Hn Ht Hd1) as N. destruct (file_name_find j nt ix name d1) as [d2 x]. destruct N as (N1 & N2). cbn [snd].
      split; [intros ->; exact N2|]. intros d3 e E3. assert (x = Some (Ok e)) by congruence. subst x. apply (entry_calm_of nt img U). exact (proj1 N2).
  Qed.
End Claims.
Lemma open_calm d : bytes_ok (d_img d) -> snd (ntfs_new d) <> Panic.
Proof. intros Hd. exact (np_not _ _ (proj2 (opened_np d Hd))). Qed.
