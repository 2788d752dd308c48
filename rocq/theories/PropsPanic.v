(** * Property C65: which volumes make the library panic.

    Whatever a volume contains, and whatever the device does, the library does not panic unless the volume has one of the shapes listed in SpecPanic.v.
    For each shape there is a panic: C04_large_record_refuted, C20_short_attribute_refuted, C43_panic_refuted, C30_no_panic_refuted, and, for the
    example program, C53_backslash_refuted and [C65_keyless_refuted] below. Nothing is assumed of the device: it may split reads and fail at any time,
    with any kind of error, and [fuel] is any number. *)
From Coq Require Import Lia.
From Verif Require Import Base Dev Types Record DataRuns Stream NonResident Resident BootSector Attribute File Structured AttrList Upcase Index Time Volume Shell
  Spec SpecMisc SpecIndex SpecTotal SpecPanic BaseProofs ShellProofs FileExamples ValueExamples AttrListExamples IndexExamples VolumeExamples PanicShellProofs PanicExamples.

(** C65. Opening a volume never panics. *)
Theorem C65_open : forall d, bytes_ok (d_img d) -> snd (ntfs_new d) <> Panic.
Proof. exact open_calm. Qed.
Print Assumptions C65_open.
(** Opening a file by its number, the upper case table, the information about the volume. *)
Theorem C65_file : forall nt img, opened nt -> tame_volume nt img -> forall n d, 0 <= n -> d_img d = img -> snd (ntfs_file nt n d) <> Panic.
Proof. exact file_calm. Qed.
Print Assumptions C65_file.
Theorem C65_upcase_table : forall nt img, opened nt -> tame_volume nt img -> forall fuel d, d_img d = img -> snd (read_upcase_table fuel nt d) <> Panic.
Proof. exact table_calm. Qed.
Print Assumptions C65_upcase_table.
Theorem C65_volume : forall nt img, opened nt -> tame_volume nt img -> forall d, d_img d = img -> snd (volume_info nt d) <> Panic /\ snd (volume_name nt d) <> Some Panic.
Proof. exact volume_calm. Qed.
Print Assumptions C65_volume.
(** Iterating over the attributes of a file, and everything that one can do with those (see [value_calm]). *)
Theorem C65_attributes_raw : forall nt img, opened nt -> tame_volume nt img -> forall f, read_on nt img f -> raw_start f <> Panic /\
  forall s n, raw_start f = Ok s -> Forall (fun x => x <> Some Panic /\ forall a, x = Some (Ok a) -> value_calm nt img a) (iterate (raw_next f) n s).
Proof. exact raw_calm. Qed.
Print Assumptions C65_attributes_raw.
Theorem C65_attributes : forall nt img, opened nt -> tame_volume nt img -> forall f, read_on nt img f -> attrs_start f <> Panic /\
  forall st fuel n d, attrs_start f = Ok st -> d_img d = img ->
    Forall (fun x => x <> Some Panic /\ forall i, x = Some (Ok i) -> item_calm nt img i) (iterate (with_dev (attrs_next fuel nt)) n (st, d)).
Proof. exact attributes_calm. Qed.
Print Assumptions C65_attributes.
(** The value [v] of any attribute [a], read as an attribute list. *)
Theorem C65_attribute_list : forall nt img, opened nt -> tame_volume nt img -> forall f s m a v, read_on nt img f -> raw_start f = Ok s ->
  In (Some (Ok a)) (iterate (raw_next f) m s) -> attr_value_simple (cluster_size nt) a = Ok v ->
  forall n d, d_img d = img ->
    Forall (fun x => x <> Some Panic /\ forall e, x = Some (Ok e) -> list_entry_calm nt img e) (iterate (with_dev alist_next) n (alist_of_sval v, d)).
Proof. exact list_calm. Qed.
Print Assumptions C65_attribute_list.
(** The lookups in a file. *)
Theorem C65_searches : forall nt img, opened nt -> tame_volume nt img -> forall f fuel d, read_on nt img f -> d_img d = img ->
  (forall ty name, snd (find_attribute fuel nt f ty name d) <> Panic /\ forall d' i, find_attribute fuel nt f ty name d = (d', Ok i) -> item_calm nt img i) /\
  (forall stream, stream = [] \/ Forall unit_ok stream /\ has_table nt ->
     snd (file_data fuel nt f stream d) <> Panic /\ forall d' i, file_data fuel nt f stream d = (d', Ok (Some i)) -> item_calm nt img i) /\
  (forall ns parent, snd (file_name_of fuel nt f ns parent d) <> Panic) /\
  file_info f <> Panic.
Proof. exact searches_calm. Qed.
Print Assumptions C65_searches.
(** Directories: opening one, listing it, looking up a name, and everything that one can do with the entries. *)
Theorem C65_directory : forall nt img, opened nt -> tame_volume nt img -> forall f fuel d, read_on nt img f -> d_img d = img ->
  snd (directory_index fuel nt f d) <> Panic /\
  forall d' ix, directory_index fuel nt f d = (d', Ok ix) -> tame_index nt img ix ->
    (forall j n d1, d_img d1 = img -> Forall (fun x => x <> Some Panic /\ forall e, x = Some (Ok e) -> entry_calm nt img e) (iterate (with_dev (entries_next j nt ix)) n (index_entries ix, d1))) /\
    (forall j name d1, d_img d1 = img -> Forall unit_ok name -> has_table nt ->
       snd (file_name_find j nt ix name d1) <> Some Panic /\ forall d2 e, file_name_find j nt ix name d1 = (d2, Some (Ok e)) -> entry_calm nt img e).
Proof. exact directory_calm. Qed.
Print Assumptions C65_directory.
(** The example program: no command of a session panics, whatever the user types. *)
Theorem C65_session : forall fuel cmds d, tame_image (d_img d) -> Forall texts_ok cmds ->
  session fuel cmds d <> Panic /\ forall l, session fuel cmds d = Ok l -> Forall (fun p => re_outcome (fst p) <> Panic) l.
Proof. exact session_np. Qed.
Print Assumptions C65_session.

(** The record of a file is damaged ("BAAD"), and the device fails now and then; the session has both successful commands and errors. *)
Definition exp_img : list Z := ztake 14336 (exv_img exv_sub) ++ [66; 65; 65; 68] ++ zdrop 14340 (exv_img exv_sub).
Definition exp_dev : dev := mkDev exp_img 3 [RShort 100; RErr Interrupted; RShort 20; RShort 600] [].
Lemma exp_scan : scan exp_img 0 = [1024; 4096; 6144; 11264; 12288; 13312].
Proof. vm_compute. reflexivity. Qed.
Lemma exp_tame : tame_image exp_img.
Proof.
  apply (image_tame exp_img exv_nt); [apply bytes_okb_ok; vm_compute; reflexivity|vm_compute; reflexivity|vm_compute; discriminate|vm_compute; split; discriminate|].
  intros p n f Hp. rewrite exp_scan in Hp. change (file_record_size exv_nt) with 1024. change (cluster_size exv_nt) with 512. revert n f.
  repeat (destruct Hp as [<-|Hp]; [record_at|]). destruct Hp.
Qed.
Definition exp_commands : list command := [DoDir; DoGet exv_doc; DoCd exv_sub; DoGet exv_in; DoCd [46; 46]; DoFileinfo [120]].
Example C65_example : tame_image exp_img /\ tame_image (exv_img exv_sub) /\ Forall texts_ok exp_commands /\ d_img exp_dev = exp_img /\
  exists l, session 40 exp_commands exp_dev = Ok l /\ length l = 6%nat /\
    nth_error (map (fun p => re_outcome (fst p)) l) 1 = Some (Ok (Done tt)) /\ nth_error (map (fun p => re_outcome (fst p)) l) 3 = Some (Err (EInvalidFileSignature (Some 14336) [66; 65; 65; 68])).
Proof.
  split; [exact exp_tame|]. split; [exact exv_tame|]. split; [repeat (apply Forall_cons; [cbn; auto; repeat (apply Forall_cons; [unfold unit_ok; lia|]); apply Forall_nil|]); apply Forall_nil|].
  split; [reflexivity|]. assert (L : exists l, session 40 exp_commands exp_dev = Ok l) by (eexists; vm_compute; reflexivity). destruct L as (l & L). exists l. split; [exact L|].
  assert (E : match session 40 exp_commands exp_dev with Ok l => Some (length l, nth_error (map (fun p => re_outcome (fst p)) l) 1, nth_error (map (fun p => re_outcome (fst p)) l) 3) | _ => None end =
    Some (6%nat, Some (Ok (Done tt)), Some (Err (EInvalidFileSignature (Some 14336) [66; 65; 65; 68])))) by (vm_compute; reflexivity).
  rewrite L in E. split; [congruence|]. split; congruence.
Qed.
(** So the theorems about a volume apply to it. *)
Example C65_volume_example : exists nt f, opened nt /\ tame_volume nt exp_img /\ read_on nt exp_img f /\ exists ix, snd (directory_index 16 nt f exp_dev) = Ok ix /\ tame_index nt exp_img ix.
Proof.
  assert (E0 : snd (ntfs_new exp_dev) = Ok exv_nt) by (vm_compute; reflexivity). destruct (ntfs_new exp_dev) as [d1 x] eqn:E1. cbn [snd] in E0. subst x.
  destruct (proj2 exp_tame exp_dev d1 exv_nt None eq_refl E1) as (T1 & T2 & T3). set (nt := with_table exv_nt None) in *.
  assert (Ef : exists f, snd (ntfs_file nt 5 exp_dev) = Ok f) by (eexists; vm_compute; reflexivity). destruct Ef as (f & Ef). assert (Hr : read_on nt exp_img f).
  { destruct (ntfs_file nt 5 exp_dev) as [d2 y] eqn:E2. exists 5, exp_dev, d2. split; [lia|]. split; [reflexivity|]. cbn [snd] in Ef. now subst y. }
  assert (Ei : match ntfs_file nt 5 exp_dev with (_, Ok f) => match directory_index 16 nt f exp_dev with (_, Ok _) => true | _ => false end | _ => false end = true) by (vm_compute; reflexivity).
  exists nt, f. split; [exists exp_dev, d1, exv_nt, None; split; [exact (proj1 exp_tame)|auto]|]. split; [exact T1|]. split; [exact Hr|].
  destruct (ntfs_file nt 5 exp_dev) as [d2 y] eqn:E2. cbn [snd] in Ef. subst y. destruct (directory_index 16 nt f exp_dev) as [d3 [ix|x| |]] eqn:E3; [|discriminate Ei..]. exists ix. split; [reflexivity|].
  refine (proj1 (T2 f 16%nat exp_dev d3 ix _ eq_refl E3)). destruct Hr as (n & d & d' & H). right. exists n, d, d'. exact H.
Qed.

(** The root directory has an entry without a key, which is not the last one. Listing it panics. *)
Definition exk_img : list Z := ztake 6144 (exv_img exv_sub) ++
  exv_record 3 (ex_resident 48 1 [] (exv_pad (exv_name 5 3 16 [46])) ++ ex_resident 144 2 ex_i30 (exv_index [ex_entry 11 0 (exv_name 5 1 0 exv_doc) []; ex_entry 12 0 [] []])) ++ zdrop 7168 (exv_img exv_sub).
Theorem C65_keyless_refuted : exists img cmds fuel d l, bytes_ok img /\ d_img d = img /\ d_reads d = [] /\ d_seeks d = [] /\ Forall texts_ok cmds /\
  session fuel cmds d = Ok l /\ Exists (fun p => re_outcome (fst p) = Panic) l.
Proof.
  exists exk_img, [DoDir], 40%nat, (mkDev exk_img 0 [] []). assert (L : exists l, session 40 [DoDir] (mkDev exk_img 0 [] []) = Ok l) by (eexists; vm_compute; reflexivity). destruct L as (l & L). exists l.
  split; [apply bytes_okb_ok; vm_compute; reflexivity|]. repeat (split; [reflexivity|]). split; [repeat constructor|]. split; [exact L|].
  assert (E : match session 40 [DoDir] (mkDev exk_img 0 [] []) with Ok [(r, _)] => Some (re_outcome r) | _ => None end = Some Panic) by (vm_compute; reflexivity).
  rewrite L in E. destruct l as [|[r p] [|]]; [discriminate E| |discriminate E]. apply Exists_cons_hd. cbn. congruence.
Qed.
Print Assumptions C65_keyless_refuted.
