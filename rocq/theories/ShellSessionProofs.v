(** * Whole sessions of the example program on a stored volume. *)
From Verif Require Import Base Dev Types Record DataRuns Stream NonResident Resident BootSector Attribute File Structured AttrList Upcase Index Shell
  Spec SpecMisc SpecValues SpecIndex SpecVolume BaseProofs DevProofs ReaderProofs RecordProofs StreamProofs NonResidentProofs BootSectorProofs AttributeProofs FileProofs
  StructuredProofs ValueProofs AttrListProofs MiscProofs DirectoryProofs NameFindProofs UpcaseProofs EvolveProofs ShellProofs ShellVolumeProofs.
From Coq Require Import Lia.

Lemma ntfs_new_evolves d : evolves d (fst (ntfs_new d)).
Proof.
  unfold ntfs_new. apply mbind_evolves; [apply dev_seek_evolves|]. intros _ d1. apply mbind_evolves; [apply dev_read_exact_evolves|]. intros b d2. apply evolves_refl.
Qed.

Lemma rs_read_exact_fuel fuel s n d : rs_read_exact (av_read fuel) (AVSimple s) n d = rs_read_exact (av_read 0) (AVSimple s) n d.
Proof. unfold rs_read_exact. apply av_read_exact_fuel. Qed.

(** Opening a stored volume. *)
Lemma open_volume img v d : stored_volume img v -> faultless d -> d_img d = img ->
  exists nt mp data d', ntfs_new d = (d', Ok nt) /\ good img true d' /\ cluster_size nt = v_cluster v /\ file_record_size nt = v_record v /\
    mft_position nt = Some mp /\ mft_at img mp (v_record v) data (v_mft v) /\
    boot_describes (ztake 512 img) (sector_size nt) (cluster_size nt) (ntfs_size nt) mp (file_record_size nt) (serial_number nt).
Proof.
  intros SV Hf Hi. pose proof SV as [Hb (H512 & sector & size & mp & serial & data & Hbd & Hma) _ _ _ _].
  assert (Hb' : bytes_ok (d_img d)) by (rewrite Hi; auto). destruct (open_spec d Hb' Hf) as (_ & Ho). rewrite Hi in Ho. specialize (Ho H512).
  pose proof (ntfs_new_evolves d) as Ev. destruct (ntfs_new d) as [d' r]. cbn [fst snd] in *.
  destruct r as [nt|x| |]; try contradiction; [|exfalso; exact (Ho _ _ _ _ _ _ Hbd)].
  destruct Ho as (mp' & Hbd' & Hmp & _). pose proof (boot_describes_fun _ _ _ _ _ _ _ _ _ _ _ _ _ Hbd Hbd') as E.
  assert (E2 : v_cluster v = cluster_size nt /\ mp = mp' /\ v_record v = file_record_size nt) by (split; [|split]; congruence). destruct E2 as (E2 & E3 & E4). subst mp'.
  exists nt, mp, data, d'. split; auto. split; [|splits; auto]. split; [destruct Ev; congruence|]. intros _. eapply evolves_faultless; eauto.
Qed.

(** Loading its upper case table. *)
Lemma load_upper img v nt mp mdata d : stored_volume img v -> cluster_size nt = v_cluster v -> file_record_size nt = v_record v -> mft_position nt = Some mp ->
  mft_at img mp (v_record v) mdata (v_mft v) -> good img true d ->
  zlen (v_upper v) = 65536 /\ exists N d', good img true d' /\ forall fuel, (N <= fuel)%nat -> upcase_read fuel nt d = (d', Ok (v_upper v)).
Proof.
  intros SV Hcs Hfr Hmp Hma Hg. pose proof SV as [Hb _ _ _ (data & offs & l1 & o & l2 & bs & Hrec & W & Hno & Eo & Hf1 & Hs & Hc & Hz & Hu) _].
  assert (Eu : units bs = v_upper v). { apply units_utf16; auto. eapply utf16_even; eauto. }
  split. { rewrite <- Eu. apply units_zlen. lia. }
  destruct (file_at img v nt mp mdata SV Hcs Hfr Hmp Hma 10 data Hrec) as (p & _ & Hopen). destruct (Hopen d Hg) as (d1 & E1 & Hg1). set (f := mkFile (mkRecord data (Some p)) 10) in *.
  assert (Hbas : bytes_ok (f_data f) /\ 32 <= zlen (f_data f)) by (exact (numbered_basic img v SV 10 data Hrec)).
  destruct Hbas as (Hbf & Hlf). change data with (f_data f) in W, Hno, Hf1, Hs, Hc.
  assert (Hs0 : 0 <= field 2 (f_data f) 20) by (apply field_nonneg; auto).
  assert (W' := W). rewrite Eo in W'. destruct (walk_fits f _ _ _ _ _ W' Hs0) as (Ho0 & Hfit).
  destruct (attr_content_value _ _ f o None _ Hbf Ho0 Hfit Hc) as (s & Es & Hv). destruct (value_of_reads _ _ s bs Hv) as (_ & _ & Hp & I & HI & R).
  pose proof (refines_map AVSimple _ _ _ _ _ _ _ (av_read 0) (av_seek 0) av_stream_position R ltac:(reflexivity) ltac:(reflexivity) ltac:(reflexivity)) as R'.
  destruct (refines_read_exact _ _ _ _ _ _ _ R' (AVSimple s) d1 131072) as (d' & s' & _ & Hg' & [(Hle & Er & _)|[(Hlt & _)|(Hbad & _)]]);
    [eauto|exact Hg1|lia| |cbn in Hp, Hlt; lia|lia].
  exists (S (length offs)), d'. split; auto. intros fuel Hfu. unfold upcase_read. unfold mbind at 1. rewrite E1. unfold mbind at 1.
  rewrite (unnamed_first nt d1 f offs true fuel Hbf ltac:(lia) W Hno Hfu l1 o l2 Eo Hf1 Hs). unfold mbind at 1, mlift at 1. unfold mbind at 1, mlift at 1.
  unfold item_to_attribute. cbn [ai_value_file ai_file ai_offset ai_entries]. rewrite (proj1 (attr_new_spec f o None Ho0) Hfit).
  unfold mbind at 1, mlift at 1. rewrite (attr_value_length_content (v_cluster v) img f o None bs Hbf Ho0 Hfit Hc). rewrite Hz. change (131072 =? UPCASE_TABLE_SIZE) with true. cbn [negb].
  unfold attr_value. cbn [at_entries]. unfold mbind, mlift, mret. rewrite Hcs, Es. rewrite rs_read_exact_fuel. change UPCASE_TABLE_SIZE with 131072. rewrite Er.
  cbn [av_stream_position]. rewrite Hp, zdrop_0, ztake_all by lia. now rewrite Eu.
Qed.

(** The shell is ready for commands. *)
Record ready (img : list Z) (v : volume) (nt : ntfs) (sh : shell) : Prop := {
  rd_step : forall c, command_ok img v c -> forall p sh d, on_path img v p sh -> good img true d -> exists N d' sh' r p', good img true d' /\ on_path img v p' sh' /\
    answers img v p c r p' /\ forall fuel, (N <= fuel)%nat -> run_command fuel nt sh c d = (d', (sh', r));
  rd_commands : forall cs, Forall (command_ok img v) cs -> forall p sh d, on_path img v p sh -> good img true d -> exists N l, history img v p cs l /\
    forall fuel, (N <= fuel)%nat -> run_commands fuel nt sh cs d = l;
  rd_path : on_path img v [] sh
}.
Lemma shell_open_ok img v d : stored_volume img v -> closed v -> plain_names v -> faultless d -> d_img d = img ->
  exists N nt sh d', good img true d' /\ ready img v nt sh /\ forall fuel, (N <= fuel)%nat -> shell_open fuel d = (d', Ok (nt, sh)).
Proof.
  intros SV Hcl Hpn Hf Hi.
  destruct (open_volume img v d SV Hf Hi) as (nt0 & mp & mdata & d1 & E1 & Hg1 & C1 & C2 & C3 & C4 & C5).
  destruct (load_upper img v nt0 mp mdata d1 SV C1 C2 C3 C4 Hg1) as (Hul & N1 & d2 & Hg2 & E2).
  set (nt := mkNtfs (cluster_size nt0) (sector_size nt0) (ntfs_size nt0) (mft_position nt0) (file_record_size nt0) (serial_number nt0) (Some (v_upper v))).
  destruct (cl_root _ Hcl) as (o & l & Ho & Hl).
  destruct (file_of img v nt mp mdata SV C1 C2 C3 C4 5 o Ho) as (f & Hfi & Hopen). destruct (Hopen d2 Hg2) as (d3 & E3 & Hg3).
  exists N1, nt, (mkShell [f] []), d3. split; auto. split.
  - split.
    + intros c Hc p sh d0 Hp Hg. exact (command_step img v nt mp mdata SV C1 C2 C3 C4 eq_refl Hul Hcl Hpn C5 c p sh d0 Hc Hp Hg).
    + intros cs Hcs p sh d0 Hp Hg. exact (commands_ok img v nt mp mdata SV C1 C2 C3 C4 eq_refl Hul Hcl Hpn C5 cs Hcs p sh d0 Hp Hg).
    + split; [reflexivity|]. split; [|constructor]. cbn. constructor; [|constructor]. exists o, l. auto.
  - intros fuel Hfu. unfold shell_open. unfold mbind at 1. rewrite E1. unfold mbind at 1.
    unfold read_upcase_table. unfold mbind at 1. rewrite E2 by lia. unfold mret at 1. fold nt. unfold mbind, ntfs_root_directory. rewrite E3. reflexivity.
Qed.
Lemma session_ok img v cs d : stored_volume img v -> closed v -> plain_names v -> faultless d -> d_img d = img -> Forall (command_ok img v) cs ->
  exists N l, history img v [] cs l /\ forall fuel, (N <= fuel)%nat -> session fuel cs d = Ok l.
Proof.
  intros SV Hcl Hpn Hf Hi Hcs. destruct (shell_open_ok img v d SV Hcl Hpn Hf Hi) as (N1 & nt & sh & d1 & Hg & Hr & E).
  destruct (rd_commands _ _ _ _ Hr cs Hcs [] sh d1 (rd_path _ _ _ _ Hr) Hg) as (N2 & out & Hh & Hout).
  exists (N1 + N2)%nat, out. split; auto. intros fuel Hfu. unfold session. rewrite E by lia. f_equal. apply Hout. lia.
Qed.

Lemma history_outcomes img v p cs l : history img v p cs l -> length l = length cs /\ Forall (fun r => exists a, re_outcome (fst r) = Ok a) l.
Proof.
  induction 1 as [|p c r p' cs l Ha _ (IH1 & IH2)]; [split; [reflexivity|constructor]|]. split; [cbn; congruence|]. constructor; [|exact IH2].
  cbn [fst]. destruct Ha; cbn; eauto.
Qed.
Lemma session_no_panic img v cs d : stored_volume img v -> closed v -> plain_names v -> faultless d -> d_img d = img -> Forall (command_ok img v) cs ->
  exists N l, length l = length cs /\ Forall (fun r => exists a, re_outcome (fst r) = Ok a) l /\ forall fuel, (N <= fuel)%nat -> session fuel cs d = Ok l.
Proof.
  intros SV Hcl Hpn Hf Hi Hcs. destruct (session_ok img v cs d SV Hcl Hpn Hf Hi Hcs) as (N & l & Hh & Hl). exists N, l.
  destruct (history_outcomes _ _ _ _ _ Hh). auto.
Qed.

Lemma last_default {A} (l : list A) : forall x d, last (x :: l) d = last l x.
Proof. induction l as [|y l IH]; intros x d; [reflexivity|]. change (last (x :: y :: l) d) with (last (y :: l) d). now rewrite !IH. Qed.
Lemma history_app img v a : forall p b l, history img v p (a ++ b) l -> exists la lb q, l = la ++ lb /\ length la = length a /\ prompt q = last (map snd la) (prompt p) /\ history img v q b lb.
Proof.
  induction a as [|c a IH]; intros p b l H; cbn [app] in H.
  - exists [], l, p. auto.
  - inversion H as [|p0 c0 r p' cs l' Ha Hh]; subst. destruct (IH p' b l' Hh) as (la & lb & q & -> & Hl & Hq & Hb).
    exists ((r, prompt p') :: la), lb, q. split; [reflexivity|]. split; [cbn; congruence|]. split; auto. cbn [map snd]. now rewrite last_default.
Qed.
Lemma session_up img v cs name d : stored_volume img v -> closed v -> plain_names v -> faultless d -> d_img d = img ->
  Forall (command_ok img v) (cs ++ [DoCd name; DoCd [46; 46]]) -> name <> [] -> name <> [46; 46] ->
  exists N l r1 p1 r2 p2, length l = length cs /\
    (forall fuel, (N <= fuel)%nat -> session fuel (cs ++ [DoCd name; DoCd [46; 46]]) d = Ok (l ++ [(r1, p1); (r2, p2)])) /\
    (re_outcome r1 = Ok (Done tt) -> p2 = last (map snd l) [] /\ r2 = quiet).
Proof.
  intros SV Hcl Hpn Hf Hi Hcs Hn Hd. destruct (session_ok img v _ d SV Hcl Hpn Hf Hi Hcs) as (N & l & Hh & Hl).
  destruct (history_app _ _ _ _ _ _ Hh) as (la & lb & q & -> & Hla & Hq & Hb).
  inversion Hb as [|p0 c0 r1 p1 cs0 l0 Ha1 Hb1]; subst. inversion Hb1 as [|p0 c0 r2 p2 cs0 l1 Ha2 Hb2]; subst. inversion Hb2; subst.
  exists N, la, r1, (prompt p1), r2, (prompt p2). split; auto. split; auto. intros Hr. cbn [prompt] in Hq. rewrite <- Hq.
  inversion Ha1; subst; try congruence; cbn in Hr; try discriminate. inversion Ha2; subst; try congruence. cbn [tl]. auto.
Qed.
