(** * A concrete volume with a directory and a file that have attribute lists, for an example of PropsShell.v. *)
From Verif Require Import Base Dev Types Record DataRuns Stream NonResident Resident BootSector Attribute File Structured AttrList Upcase Index Shell
  Spec SpecValues SpecMisc SpecIndex SpecAttrList SpecListDir SpecVolume BaseProofs ReaderProofs RecordProofs NonResidentProofs AttributeProofs FileProofs StructuredProofs ValueProofs AttrListProofs
  AttrListIterProofs NodeProofs IndexRecordProofs IndexProofs DirectoryProofs NameFindProofs MiscProofs StreamExamples FileExamples ValueExamples IndexExamples AttrListExamples SpecInfo ShellProofs
  VolumeExamples.

(** ** The views of a list are determined by the device *)
Lemma record_stored_fun img nt nt' ml n p data p' data' : bytes_ok img -> cluster_size nt = cluster_size nt' -> file_record_size nt = file_record_size nt' ->
  record_stored img nt ml n p data -> record_stored img nt' ml n p' data' -> p = p' /\ data = data'.
Proof.
  intros Hb E1 E2 [_ P1 _ _ [S1 _]] [_ P2 _ _ [S2 _]]. rewrite E1, E2 in *. assert (p = p') by congruence. subst p'. split; auto.
  eapply stored_unique; [|exact S1|exact S2]. now apply bytes_ok_slice.
Qed.
Lemma locates_fun data ty inst a a' : locates data ty inst a -> locates data ty inst a' -> a = a'.
Proof.
  intros (l1 & l2 & b & W & F & T & I) (k1 & k2 & c & W' & F' & T' & I'). destruct (walk_fun _ _ _ _ W _ _ W') as [E _]. clear W W'.
  assert (N : forall x, attr_type_at data x = ty -> attr_instance_at data x = inst -> ~ is_other data ty None (Some inst) x).
  { intros x T0 I0 (_ & [H|[(i & [= <-] & H)|(n & bs & [=] & _)]]); auto. }
  revert k1 F' E. induction l1 as [|x l1 IH]; intros [|y k1] F' E; cbn in E; injection E as E1 E.
  - exact E1.
  - subst y. now destruct (N a T I (Forall_inv F')).
  - subst x. now destruct (N a' T' I' (Forall_inv F)).
  - exact (IH (Forall_inv_tail F) k1 (Forall_inv_tail F') E).
Qed.
Lemma listed_fun img nt nt' ml bs self : bytes_ok img -> cluster_size nt = cluster_size nt' -> file_record_size nt = file_record_size nt' ->
  forall cur ents vs, listed img nt ml bs self cur ents vs -> forall vs', listed img nt' ml bs self cur ents vs' -> vs = vs'.
Proof.
  intros Hb E1 E2. 
  assert (A : forall n p data, record_stored img nt' ml n p data -> U64_MAX < n * file_record_size nt \/ disk_position (cluster_size nt) ml (n * file_record_size nt) = None -> False).
  { intros n p data [R1 R2 _ _ _]. rewrite E1, E2. intros [H|H]; [lia|congruence]. }
  assert (A' : forall n p data, record_stored img nt ml n p data -> U64_MAX < n * file_record_size nt' \/ disk_position (cluster_size nt') ml (n * file_record_size nt') = None -> False).
  { intros n p data [R1 R2 _ _ _]. rewrite <- E1, <- E2. intros [H|H]; [lia|congruence]. }
  assert (B : forall n p data p' data', record_stored img nt ml n p data -> record_stored img nt' ml n p' data' -> p = p' /\ data = data') by (intros; eapply record_stored_fun; eauto).
  induction 1 as [cur|cur o offs vs K1 K2 L IH|cur o offs vs K1 K2 K3 L IH|cur o offs vs p data a S R Lo Re L IH|cur o offs vs p data a S R Lo Re L IH
    |cur o offs vs K L IH|cur o offs vs S N L IH|cur o offs vs p data S R N L IH]; intros vs' H;
  inversion H as [ ? |? ? ? ? K1' K2' L'|? ? ? ? K1' K2' K3' L'|? ? ? ? p' data' a' S' R' Lo' Re' L'|? ? ? ? p' data' a' S' R' Lo' Re' L'
    |? ? ? ? K' L'|? ? ? ? S' N' L'|? ? ? ? p' data' S' R' N' L']; subst; auto;
  try (unfold shown in *; tauto);
  try (exfalso; eauto; fail);
  try (destruct (B _ _ _ _ _ R R') as [-> ->]);
  try (assert (a = a') by (eapply locates_fun; eauto); subst a');
  try tauto; try (match goal with N : forall a, ~ locates _ _ _ a, K : locates _ _ _ ?a |- _ => destruct (N a K) end);
  try (exfalso; match goal with R : record_stored _ nt _ _ _ _, N : _ \/ _ |- _ => exact (A' _ _ _ R N) | R : record_stored _ nt' _ _ _ _, N : _ \/ _ |- _ => exact (A _ _ _ R N) end; fail);
  f_equal; auto.
Qed.

(** ** The volume
    As in VolumeExamples.v, but the root directory has only the directory "sub" (record 12), which has an attribute list, its index being in
    record 6; and "in" (record 13) has one, too: standard information is in record 7, and the content in two parts in records 7 and 8. *)
Definition exw_root_entries : list (list Z) := [ex_entry 12 0 (exv_name 5 3 16 exv_sub) []].
Definition exw_list12 : list Z := ex_le32 16 0 12 0 ++ ex_le32 48 0 12 1 ++ ex_le32 144 0 6 2.
Definition exw_list13 : list Z := ex_le32 16 0 7 0 ++ ex_le32 48 0 13 1 ++ ex_le32 128 0 7 5 ++ ex_le32 128 1 8 5.
Definition exw_rec5 : list Z := exv_record 3 (ex_resident 48 1 [] (exv_pad (exv_name 5 3 16 [46])) ++ ex_resident 144 2 ex_i30 (exv_index exw_root_entries)).
Definition exw_rec6 : list Z := exv_record 1 (ex_resident 144 2 ex_i30 (exv_index exv_sub_entries)).
Definition exw_rec7 : list Z := exv_record 1 (ex_resident 16 0 [] exv_std ++ exv_nonresident 128 5 [188; 2; 0; 0; 0; 0; 0; 0] [33; 1; 31; 1; 0; 0; 0; 0]).
Definition exw_rec8 : list Z := exv_record 1 (exv_nonresident 128 5 [0; 0; 0; 0; 0; 0; 0; 0] [33; 1; 30; 1; 0; 0; 0; 0]).
Definition exw_rec12 : list Z := exv_record 3 (ex_resident 16 0 [] exv_std ++ ex_resident 32 3 [] exw_list12 ++ ex_resident 48 1 [] (exv_pad (exv_name 5 3 16 exv_sub))).
Definition exw_rec13 : list Z := exv_record 1 (ex_resident 32 3 [] exw_list13 ++ ex_resident 48 1 [] (exv_pad (exv_name 12 1 0 exv_in))).
Definition exw_mft : list Z :=
  exv_rec0 ++ zrepeat 0 2048 ++ exv_rec3 ++ zrepeat 0 1024 ++ exw_rec5 ++ exw_rec6 ++ exw_rec7 ++ exw_rec8 ++ zrepeat 0 1024 ++ exv_rec10 ++ zrepeat 0 1024 ++ exw_rec12 ++ exw_rec13.
Definition exw_img : list Z := exv_boot ++ zrepeat 0 512 ++ exw_mft ++ exv_units ex_dir_table ++ zrepeat 2 512 ++ zrepeat 1 512.
Definition exw_object (n : Z) : option object :=
  if n =? 5 then Some (mkObject [mkLink 5 3 [46]] [] (Some [mkDirent exv_sub true 12]))
  else if n =? 12 then Some (mkObject [mkLink 5 3 exv_sub] [] (Some [mkDirent exv_in false 13]))
  else if n =? 13 then Some (mkObject [mkLink 12 1 exv_in] [([], exv_content)] None)
  else None.
Definition exw_ml := [mkExtent (Some 2) 28].
Definition exw_volume : volume := mkVolume 512 1024 exw_ml ex_dir_table exw_object.
Definition exw_dev : dev := mkDev exw_img 77 [RShort 5; RShort 100; RShort 1000] [None].
Definition exw_nt : ntfs := mkNtfs 512 512 147456 (Some 1024) 1024 99 None.

Lemma exw_bytes : bytes_ok exw_img. Proof. apply bytes_okb_ok; vm_compute; reflexivity. Qed.
Lemma exw_len : zlen exw_img = 147456. Proof. vm_compute; reflexivity. Qed.
Lemma exw_mft_is : concat (map (extent_bytes 512 exw_img) exw_ml) = exw_mft. Proof. apply list_eqb_eq; vm_compute; reflexivity. Qed.
Lemma exw_boot : ztake 512 exw_img = exv_boot. Proof. vm_compute; reflexivity. Qed.
Lemma exw_rec0 : slice exw_img 1024 2048 = exv_rec0. Proof. vm_compute; reflexivity. Qed.
Lemma exw_content : file_content 512 exw_img [mkExtent (Some 287) 1; mkExtent (Some 286) 1] 700 = exv_content. Proof. vm_compute; reflexivity. Qed.
Lemma exw_upper : file_content 512 exw_img [mkExtent (Some 30) 256] 131072 = exv_units ex_dir_table. Proof. apply list_eqb_eq; vm_compute; reflexivity. Qed.

Lemma exw_numbered n prot data : 0 <= n <= 13 -> slice exw_mft (n * 1024) (n * 1024 + 1024) = prot -> bytes_ok prot -> zlen prot = 1024 -> field 2 prot 4 = 48 -> field 2 prot 6 = 3 ->
  file_of_bytes prot None n = Ok (mkFile (mkRecord data None) n) -> numbered_record exw_img exw_volume n data.
Proof.
  intros Hn E Hb Hl H4 H6 Hf. unfold numbered_record. change (v_cluster exw_volume) with 512. change (v_mft exw_volume) with exw_ml. change (v_record exw_volume) with 1024. rewrite exw_mft_is, E.
  destruct (ex_stored _ _ _ _ Hb Hl H4 H6 Hf) as (Hs & Hk).
  split; [unfold U64_MAX; lia|]. split; [unfold U64_MAX; cbn; lia|].
  split. { exists [], (mkExtent (Some 2) 28), []. split; [reflexivity|]. split; [discriminate|]. cbn. lia. }
  split; [rewrite H4, H6; exact ex_array_clear|]. auto.
Qed.
Ltac recw_at P := apply (exw_numbered _ P); [lia|vm_compute; reflexivity|apply bytes_okb_ok; vm_compute; reflexivity|vm_compute; reflexivity|vm_compute; reflexivity|
  vm_compute; reflexivity|vm_compute; reflexivity].
Lemma exw_numbered5 : numbered_record exw_img exw_volume 5 (exv_data exw_rec5 5). Proof. recw_at exw_rec5. Qed.
Lemma exw_numbered10 : numbered_record exw_img exw_volume 10 (exv_data exv_rec10 10). Proof. recw_at exv_rec10. Qed.
Lemma exw_numbered12 : numbered_record exw_img exw_volume 12 (exv_data exw_rec12 12). Proof. recw_at exw_rec12. Qed.
Lemma exw_numbered13 : numbered_record exw_img exw_volume 13 (exv_data exw_rec13 13). Proof. recw_at exw_rec13. Qed.
Lemma exw_numbered_fun n data data' : numbered_record exw_img exw_volume n data -> numbered_record exw_img exw_volume n data' -> data = data'.
Proof.
  intros (_ & _ & _ & _ & H & _) (_ & _ & _ & _ & H' & _). change (v_cluster exw_volume) with 512 in *. change (v_mft exw_volume) with exw_ml in *. rewrite exw_mft_is in H, H'.
  eapply stored_unique; [|exact H|exact H']. apply bytes_ok_slice. apply bytes_okb_ok. vm_compute. reflexivity.
Qed.
Lemma exw_position n : 0 <= n <= 13 -> disk_position 512 exw_ml (n * 1024) = Some (1024 + n * 1024).
Proof. intros Hn. cbn [exw_ml disk_position e_count e_lcn]. destruct (n * 1024 <? 28 * 512) eqn:E; [f_equal; lia|lia]. Qed.
Lemma exw_placed n data : 0 <= n <= 13 -> numbered_record exw_img exw_volume n data -> placed_record exw_img exw_volume n (1024 + n * 1024) data.
Proof. intros Hn H. split; [exact H|]. now apply exw_position. Qed.
(** The records that the lists refer to. *)
Lemma exw_stored_record nt n prot : cluster_size nt = 512 -> file_record_size nt = 1024 -> 0 <= n <= 13 -> slice exw_img (1024 + n * 1024) (1024 + n * 1024 + 1024) = prot ->
  zlen prot = 1024 -> field 2 prot 4 = 48 -> field 2 prot 6 = 3 -> file_of_bytes prot None n = Ok (mkFile (mkRecord (exv_data prot n) None) n) ->
  record_stored exw_img nt exw_ml n (1024 + n * 1024) (exv_data prot n).
Proof.
  intros Ec Er Hn Hs Hl H4 H6 Hf. split; rewrite ?Ec, ?Er.
  - unfold U64_MAX. lia.
  - now apply exw_position.
  - rewrite exw_len. lia.
  - cbv zeta. rewrite ?Er, Hs, H4, H6. exact ex_array_clear.
  - rewrite Hs. refine (ex_stored _ _ _ _ _ Hl H4 H6 Hf). rewrite <- Hs. apply bytes_ok_slice. exact exw_bytes.
Qed.
Ltac storedw P := match goal with |- forall nt, _ => intros nt E1 E2 end; match goal with |- record_stored _ _ _ ?n _ _ => apply (exw_stored_record _ n P); [assumption|assumption|lia|vm_compute; reflexivity ..] end.
Lemma exw_stored6 : forall nt, cluster_size nt = 512 -> file_record_size nt = 1024 -> record_stored exw_img nt exw_ml 6 7168 (exv_data exw_rec6 6). Proof. storedw exw_rec6. Qed.
Lemma exw_stored7 : forall nt, cluster_size nt = 512 -> file_record_size nt = 1024 -> record_stored exw_img nt exw_ml 7 8192 (exv_data exw_rec7 7). Proof. storedw exw_rec7. Qed.
Lemma exw_stored8 : forall nt, cluster_size nt = 512 -> file_record_size nt = 1024 -> record_stored exw_img nt exw_ml 8 9216 (exv_data exw_rec8 8). Proof. storedw exw_rec8. Qed.
Lemma exw_walk6 : attr_walk (exv_data exw_rec6 6) (field 2 (exv_data exw_rec6 6) 20) [56] true. Proof. apply walkb_ok. vm_compute. reflexivity. Qed.
Lemma exw_walk7 : attr_walk (exv_data exw_rec7 7) (field 2 (exv_data exw_rec7 7) 20) [56; 128] true. Proof. apply walkb_ok. vm_compute. reflexivity. Qed.
Lemma exw_walk8 : attr_walk (exv_data exw_rec8 8) (field 2 (exv_data exw_rec8 8) 20) [56] true. Proof. apply walkb_ok. vm_compute. reflexivity. Qed.
Lemma exw_walk12 : attr_walk (exv_data exw_rec12 12) (field 2 (exv_data exw_rec12 12) 20) [56; 128; 248] true. Proof. apply walkb_ok. vm_compute. reflexivity. Qed.
Lemma exw_walk13 : attr_walk (exv_data exw_rec13 13) (field 2 (exv_data exw_rec13 13) 20) [56; 208] true. Proof. apply walkb_ok. vm_compute. reflexivity. Qed.
Lemma exw_locates6 : locates (exv_data exw_rec6 6) 144 2 56.
Proof. exists [], [], true. split; [exact exw_walk6|]. split; [constructor|]. split; vm_compute; reflexivity. Qed.
Lemma exw_locates7 : locates (exv_data exw_rec7 7) 16 0 56.
Proof. exists [], [128], true. split; [exact exw_walk7|]. split; [constructor|]. split; vm_compute; reflexivity. Qed.
Lemma exw_locates7_data : locates (exv_data exw_rec7 7) 128 5 128.
Proof. exists [56], [], true. split; [exact exw_walk7|]. split; [apply Forall_cons; [|constructor]|split; vm_compute; reflexivity]. split; [apply known_type_spec; reflexivity|left; vm_compute; discriminate]. Qed.
Lemma exw_locates8 : locates (exv_data exw_rec8 8) 128 5 56.
Proof. exists [], [], true. split; [exact exw_walk8|]. split; [constructor|]. split; vm_compute; reflexivity. Qed.
Definition exw_views12 := [VOther 6 7168 (exv_data exw_rec6 6) 56].
Definition exw_views13 := [VOther 7 8192 (exv_data exw_rec7 7) 56; VParts 7 8192 (exv_data exw_rec7 7) 128 [64; 96]].
Lemma exw_listed12 nt : cluster_size nt = 512 -> file_record_size nt = 1024 -> listed exw_img nt exw_ml exw_list12 12 None [0; 32; 64] exw_views12.
Proof.
  intros E1 E2. do 2 (apply ls_own; [apply known_type_spec; vm_compute; reflexivity|vm_compute; reflexivity|]).
  apply ls_resident_n; [vm_compute; reflexivity|shown_now|now apply exw_stored6|exact exw_locates6|vm_compute; reflexivity|]. apply ls_end.
Qed.
Lemma exw_listed13 nt : cluster_size nt = 512 -> file_record_size nt = 1024 -> listed exw_img nt exw_ml exw_list13 13 None [0; 32; 64; 96] exw_views13.
Proof.
  intros E1 E2. apply ls_resident_n; [vm_compute; reflexivity|shown_now|now apply exw_stored7|exact exw_locates7|vm_compute; reflexivity|].
  apply ls_own; [apply known_type_spec; vm_compute; reflexivity|vm_compute; reflexivity|].
  apply ls_nonresident_n; [vm_compute; reflexivity|shown_now|now apply exw_stored7|exact exw_locates7_data|vm_compute; discriminate|].
  apply ls_part; [apply known_type_spec; vm_compute; reflexivity|vm_compute; discriminate|vm_compute; reflexivity|]. apply ls_end.
Qed.
Lemma exw_valid l : Forall (extent_fits 512) l -> Forall (extent_on_device 512 (zrepeat 0 147456)) l -> lcns_distinct 0 l -> valid_extents 512 exw_img l.
Proof. intros H1 H2 H3. apply (valid_len _ _ (zrepeat 0 147456)); [rewrite exw_len; vm_compute; reflexivity|]. split; auto; vm_compute; discriminate. Qed.
Ltac validw := apply exw_valid; [repeat (apply Forall_cons; [vm_compute; intuition discriminate|]); apply Forall_nil|
    repeat (apply Forall_cons; [vm_compute; intuition discriminate|]); apply Forall_nil|vm_compute; intuition discriminate].
Lemma exw_mft_at : mft_at exw_img 1024 1024 (exv_data exv_rec0 0) exw_ml.
Proof.
  split; change (1024 + 1024) with 2048; rewrite ?exw_rec0, ?exw_len.
  - lia.
  - apply (ex_stored exv_rec0 None 0 (mkFile (mkRecord (exv_data exv_rec0 0) None) 0)); [apply bytes_okb_ok; vm_compute; reflexivity|vm_compute; reflexivity ..].
  - rewrite (eq_refl : field 2 exv_rec0 4 = 48), (eq_refl : field 2 exv_rec0 6 - 1 = 2); exact ex_array_clear.
  - exists [], 56, [], true; cbn [app]; split; [apply walkb_ok; vm_compute; reflexivity|]; split; [constructor|];
    split; [vm_compute; reflexivity|]; split; [vm_compute; discriminate|]; split; [vm_compute; discriminate|]; split; [vm_compute; reflexivity|];
    split; [vm_compute; discriminate|].
    match goal with |- encodes _ _ ?x => replace x with [17; 28; 2; 0; 0; 0; 0; 0] by (vm_compute; reflexivity) end.
    apply (enc_data 0 2 28 [28] [2] [] [0; 0; 0; 0; 0]); [apply ubytes1, byte1; lia|apply sbytes1; lia|constructor].
Qed.
Lemma exw_mft_valid : valid_extents 512 exw_img exw_ml. Proof. validw. Qed.
Ltac has_listw W L :=
  split; [reflexivity|reflexivity|]; split;
  [exact exw_bytes|exists 1024, (exv_data exv_rec0 0); split; [reflexivity|exact exw_mft_at]|unfold U16_MAX; cbn; lia|exact exw_mft_valid
  |split; [apply bytes_okb_ok; vm_compute; reflexivity|vm_compute; discriminate]
  |unfold position_sane; intros ? [= <-]; vm_compute; intuition discriminate
  |exact W|repeat (apply Forall_cons; [vm_compute; discriminate|]); apply Forall_nil|repeat (apply Forall_cons; [vm_compute; discriminate|]); apply Forall_nil
  |vm_compute; reflexivity|apply ac_resident; [vm_compute; reflexivity|vm_compute; discriminate|split; [vm_compute; discriminate|vm_compute; reflexivity]]
  |vm_compute; discriminate|apply (lwalk_ok 9); vm_compute; reflexivity|discriminate|].
Lemma exw_has12 : has_list exw_img exw_volume 12 13312 (exv_data exw_rec12 12) exw_nt [56] 128 [248] exw_list12 [0; 32; 64] ListDone exw_views12.
Proof. has_listw exw_walk12 exw_listed12. exact (exw_listed12 exw_nt eq_refl eq_refl). Qed.
Lemma exw_has13 : has_list exw_img exw_volume 13 14336 (exv_data exw_rec13 13) exw_nt [] 56 [208] exw_list13 [0; 32; 64; 96] ListDone exw_views13.
Proof. has_listw exw_walk13 exw_listed13. exact (exw_listed13 exw_nt eq_refl eq_refl). Qed.

(** ** What the records say *)
Ltac viewed := cbn [at_view view_at].
Ltac otherw := apply otl_other; [cbn [at_view view_at]; vm_compute; discriminate|].
Ltac knownw := repeat (apply Forall_cons; [cbn [at_view view_at]; vm_compute; auto 20|]); apply Forall_nil.
Fixpoint pairs (l : list Z) : list (Z * Z) := match l with [] => [] | x :: l => map (pair x) l ++ pairs l end.
Lemma pairs_in l1 o l2 o' l3 : In (o, o') (pairs (l1 ++ o :: l2 ++ o' :: l3)).
Proof.
  induction l1 as [|x l1 IH]; cbn [app pairs]; apply in_or_app; [left|right; exact IH]. apply in_map. apply in_elt.
Qed.
Lemma told_apart_pairs bs self ents : forallb (fun p => (entry_number bs (fst p) =? self) || (entry_number bs (snd p) =? self) || negb (entry_type bs (fst p) =? entry_type bs (snd p)) ||
    negb (entry_instance bs (fst p) =? entry_instance bs (snd p)) || negb (field 8 bs (snd p + 8) =? 0)) (pairs ents) = true -> told_apart bs self ents.
Proof.
  intros H l1 o l2 o' l3 -> N N' T I E. pose proof (proj1 (forallb_forall _ _) H _ (pairs_in l1 o l2 o' l3)) as K. cbn [fst snd] in K. lia.
Qed.
Lemma exw_link12 : at_view (exv_data exw_rec12 12) (fun data o => says_link data o (mkLink 5 3 exv_sub)) (VBase 248).
Proof. cbn [at_view view_at]. link_at. Qed.
Lemma exw_describes12 : describes_listed exw_img exw_volume 12 13312 (exv_data exw_rec12 12) (mkObject [mkLink 5 3 exv_sub] [] (Some [mkDirent exv_in false 13])).
Proof.
  exists exw_nt, [56], 128, [248], exw_list12, [0; 32; 64], ListDone, exw_views12. split; [exact exw_has12|].
  change (SpecAttrList.entries_of (exv_data exw_rec12 12) 128 [0; 32; 64] ListDone) with [0; 32; 64].
  split; [apply told_apart_pairs; vm_compute; reflexivity|].
  cbv zeta. unfold exw_views12. cbn [map app].
  split; [knownw|]. split; [otherw; otherw; apply otl_one; [viewed; vm_compute; reflexivity|exact exw_link12|constructor]|].
  split; [otherw; otherw; otherw; constructor|].
  cbn [ob_entries]. exists (exv_index exv_sub_entries), [], exv_sub_entries.
  split.
  { split.
    - split; [vm_compute; discriminate|vm_compute; reflexivity].
    - exists (VOther 6 7168 (exv_data exw_rec6 6) 56), (exv_data exw_rec6 6), 56. split.
      { exists [VBase 56]. eexists. split; [reflexivity|]. split; [apply Forall_cons; [|apply Forall_nil]; split; [apply known_type_spec; vm_compute; reflexivity|left; vm_compute; discriminate]|].
        split; [vm_compute; reflexivity|]. split; [discriminate|]. intros n E. assert (n = I30) by congruence. subst n. exists ex_i30. split; [name_at|apply ex_i30_units]. }
      split; [reflexivity|]. split; [vm_compute; reflexivity|]. split; [vm_compute; discriminate|]. split; vm_compute; [discriminate|reflexivity].
    - split; [|split; [|split]]; vm_compute; (discriminate || reflexivity).
    - vm_compute. reflexivity.
    - vm_compute. discriminate. }
  split; [unfold index_listing, exv_sub_entries; small_entry; small_last|].
  split; [unfold exv_sub_entries; repeat (apply Forall2_cons; [entry_says|]); constructor|]. apply sorted_one.
Qed.
Lemma exw_encodes7 : encodes 0 [mkExtent (Some 287) 1] [33; 1; 31; 1; 0; 0; 0; 0].
Proof.
  apply (enc_data 0 287 1 [1] [31; 1] [] [0; 0; 0; 0]); [apply ubytes1, byte1; lia| |constructor].
  split; [repeat constructor; unfold is_byte; lia|]; change (zlen [31; 1]) with 2; change (256 ^ 2) with 65536; change (65536 / 2) with 32768; cbn [le_val]; repeat split; lia.
Qed.
Lemma exw_encodes8 : encodes 0 [mkExtent (Some 286) 1] [33; 1; 30; 1; 0; 0; 0; 0].
Proof.
  apply (enc_data 0 286 1 [1] [30; 1] [] [0; 0; 0; 0]); [apply ubytes1, byte1; lia| |constructor].
  split; [repeat constructor; unfold is_byte; lia|]; change (zlen [30; 1]) with 2; change (256 ^ 2) with 65536; change (65536 / 2) with 32768; cbn [le_val]; repeat split; lia.
Qed.
Lemma exw_connected : connected exw_img exw_nt exw_ml exw_list13 128 5 ListDone [64; 96] [[mkExtent (Some 287) 1]; [mkExtent (Some 286) 1]].
Proof.
  eapply con_part; [reflexivity|reflexivity|exact (exw_stored7 exw_nt eq_refl eq_refl)| |discriminate| |].
  { exists [56], 128, [], true. split; [exact exw_walk7|].
    split; [constructor; [|constructor]; split; [apply known_type_spec; reflexivity|left; vm_compute; discriminate]|].
    split; [reflexivity|]. split; [reflexivity|]. split; [vm_compute; discriminate|]. split; [vm_compute; discriminate|]. split; [vm_compute; discriminate|]. exact exw_encodes7. }
  { validw. }
  eapply con_part; [reflexivity|reflexivity|exact (exw_stored8 exw_nt eq_refl eq_refl)| |discriminate| |].
  { exists [], 56, [], true. split; [exact exw_walk8|]. split; [constructor|].
    split; [reflexivity|]. split; [reflexivity|]. split; [vm_compute; discriminate|]. split; [vm_compute; discriminate|]. split; [vm_compute; discriminate|]. exact exw_encodes8. }
  { validw. }
  apply con_end. discriminate.
Qed.
Lemma exw_describes13 : describes_listed exw_img exw_volume 13 14336 (exv_data exw_rec13 13) (mkObject [mkLink 12 1 exv_in] [([], exv_content)] None).
Proof.
  exists exw_nt, [], 56, [208], exw_list13, [0; 32; 64; 96], ListDone, exw_views13. split; [exact exw_has13|].
  change (SpecAttrList.entries_of (exv_data exw_rec13 13) 56 [0; 32; 64; 96] ListDone) with [0; 32; 64; 96].
  split; [apply told_apart_pairs; vm_compute; reflexivity|].
  cbv zeta. unfold exw_views13. cbn [map app].
  split; [knownw|]. split; [otherw; otherw; apply otl_one; [viewed; vm_compute; reflexivity|viewed; link_at|constructor]|].
  split; [|vm_compute; reflexivity]. otherw. apply otl_one; [viewed; vm_compute; reflexivity| |otherw; constructor].
  split; [viewed; unnamed|]. cbn [snd view_content]. exists [[mkExtent (Some 287) 1]; [mkExtent (Some 286) 1]].
  split; [vm_compute; discriminate|]. split; [vm_compute; reflexivity|]. split; [exact exw_connected|]. split; [vm_compute; discriminate|].
  cbn [concat app]. symmetry. match goal with |- file_content _ _ _ ?q = _ => replace q with 700 by (vm_compute; reflexivity) end. exact exw_content.
Qed.
Lemma exw_describes5 : describes_file exw_img exw_volume (exv_data exw_rec5 5) (mkObject [mkLink 5 3 [46]] [] (Some [mkDirent exv_sub true 12])).
Proof.
  exists [56; 152]; split; [apply walkb_ok; vm_compute; reflexivity|]; split; [not_list|]; split; [known|];
  split; [apply ot_one; [vm_compute; reflexivity|link_at|]; other; constructor|]; split; [other; other; constructor|];
  cbn [ob_entries]; exists (exv_index exw_root_entries), [], exw_root_entries; split; [small_dir 152|];
  split; [unfold index_listing, exw_root_entries; small_entry; small_last|];
  split; [unfold exw_root_entries; repeat (apply Forall2_cons; [entry_says|]); constructor|]; apply sorted_one.
Qed.
Lemma exw_stored : stored_volume exw_img exw_volume.
Proof.
  split.
  - exact exw_bytes.
  - rewrite exw_len, exw_boot. split; [lia|]. exists 512, 147456, 1024, 578437695752307201, (exv_data exv_rec0 0). split; [|exact exw_mft_at].
    split; [vm_compute; reflexivity|split; [vm_compute; reflexivity|split; [exists 9; split; [lia|reflexivity]|lia]]|
     exists 1; split; [left; split; [vm_compute; split; discriminate|split; [exists 0; split; [lia|vm_compute; reflexivity]|vm_compute; reflexivity]]|vm_compute; repeat split; discriminate]|
     vm_compute; split; [reflexivity|discriminate]|vm_compute; repeat split; discriminate|right; split; [vm_compute; split; discriminate|vm_compute; reflexivity]|vm_compute; reflexivity].
  - unfold U16_MAX; cbn; lia.
  - exact exw_mft_valid.
  - exists (exv_data exv_rec10 10), [56], [], 56, [], (exv_units ex_dir_table).
    split; [exact exw_numbered10|]; split; [apply walkb_ok; vm_compute; reflexivity|]; split; [not_list|]; split; [reflexivity|]; split; [apply Forall_nil|];
    split; [split; [vm_compute; reflexivity|]; exists [], []; split; [left; split; [right; vm_compute; reflexivity|reflexivity]|]; split; [constructor|reflexivity]|];
    split; [|split; [vm_compute; reflexivity|exact (exv_utf16 ex_dir_table)]].
    match goal with |- attr_content ?cs ?img ?data ?o ?c =>
      replace c with (file_content cs img [mkExtent (Some 30) 256] (field 8 data (o + 48))) by
        (let q := constr:(field 8 data (o + 48)) in replace q with 131072 by (vm_compute; reflexivity); exact exw_upper) end.
    apply ac_nonresident; [vm_compute; discriminate|vm_compute; discriminate|vm_compute; discriminate|validw| |vm_compute; discriminate];
    match goal with |- encodes _ _ ?x => replace x with [18; 0; 1; 30; 0; 0; 0; 0] by (vm_compute; reflexivity) end;
    apply (enc_data 0 30 256 [0; 1] [30] [] [0; 0; 0; 0]); [|apply sbytes1; lia|constructor];
    split; [repeat constructor; unfold is_byte; lia|]; split; [change (zlen [0; 1]) with 2; lia|reflexivity].
  - intros n o. cbn [v_object exw_volume]. unfold exw_object.
    destruct (n =? 5) eqn:E5; [intros [= <-]; apply Z.eqb_eq in E5; subst n; exists (exv_data exw_rec5 5); split; [exact exw_numbered5|left; exact exw_describes5]|].
    destruct (n =? 12) eqn:E12; [intros [= <-]; apply Z.eqb_eq in E12; subst n; exists (exv_data exw_rec12 12); split; [exact exw_numbered12|right; exists 13312; split;
      [exact (exw_placed 12 _ ltac:(lia) exw_numbered12)|exact exw_describes12]]|].
    destruct (n =? 13) eqn:E13; [intros [= <-]; apply Z.eqb_eq in E13; subst n; exists (exv_data exw_rec13 13); split; [exact exw_numbered13|right; exists 14336; split;
      [exact (exw_placed 13 _ ltac:(lia) exw_numbered13)|exact exw_describes13]]|].
    discriminate.
Qed.
Lemma exw_closed : closed exw_volume.
Proof.
  split; [do 2 eexists; split; reflexivity|]. intros n o l e. cbn [v_object exw_volume]. unfold exw_object.
  destruct (n =? 5); [intros [= <-] [= <-] [<-|[]]; eexists; (split; [reflexivity|discriminate])|].
  destruct (n =? 12); [intros [= <-] [= <-] [<-|[]]; eexists; (split; [reflexivity|discriminate])|].
  destruct (n =? 13); [intros [= <-]; discriminate|discriminate].
Qed.
Lemma exw_plain : plain_names exw_volume.
Proof.
  intros n o x. cbn [v_object exw_volume]. unfold exw_object.
  assert (P : forall l : list Z, l <> [] -> forallb (fun c => negb (c =? 92)) l = true -> l <> [] /\ ~ In 92 l).
  { intros l Hl H. split; auto. intros Hin. apply (proj1 (forallb_forall _ _) H) in Hin. discriminate. }
  destruct (n =? 5); [intros [= <-] [<-|[]]; apply P; [discriminate|reflexivity]|].
  destruct (n =? 12); [intros [= <-] [<-|[]]; apply P; [discriminate|reflexivity]|].
  destruct (n =? 13); [intros [= <-] [<-|[]]; apply P; [discriminate|reflexivity]|discriminate].
Qed.

(** ** What is printed about attributes *)
Lemma exw_whole5 : Forall (attr_whole 512 (exv_data exw_rec5 5)) [56; 152].
Proof. repeat (apply Forall_cons; [first [whole_resident|whole_named]|]); apply Forall_nil. Qed.
Lemma exw_whole12 : Forall (attr_whole 512 (exv_data exw_rec12 12)) [56; 128; 248].
Proof. repeat (apply Forall_cons; [first [whole_resident|whole_named]|]); apply Forall_nil. Qed.
Lemma exw_whole13 : Forall (attr_whole 512 (exv_data exw_rec13 13)) [56; 208].
Proof. repeat (apply Forall_cons; [first [whole_resident|whole_named]|]); apply Forall_nil. Qed.
Lemma exw_whole6 : attr_whole 512 (exv_data exw_rec6 6) 56. Proof. whole_named. Qed.
Lemma exw_whole7 : attr_whole 512 (exv_data exw_rec7 7) 56. Proof. whole_resident. Qed.
Ltac whole_runs E l := split; [vm_compute; auto 20|eexists; left; split; [right; vm_compute; reflexivity|reflexivity]|vm_compute; discriminate|];
  intros _; split; [vm_compute; discriminate|]; split; [vm_compute; discriminate|]; exists l; split;
  [match goal with |- encodes _ _ ?x => replace x with (slice x 0 (zlen x)) by (vm_compute; reflexivity) end; exact E|];
  split; [repeat constructor; cbn; lia|]; repeat (apply Forall_cons; [vm_compute; intuition discriminate|]); apply Forall_nil.
Lemma exw_whole7_data : attr_whole 512 (exv_data exw_rec7 7) 128. Proof. whole_runs exw_encodes7 [mkExtent (Some 287) 1]. Qed.
Lemma exw_whole8 : attr_whole 512 (exv_data exw_rec8 8) 56. Proof. whole_runs exw_encodes8 [mkExtent (Some 286) 1]. Qed.

(** The lists of the volume. *)
Lemma exw_lists n o q data nt before lo after bs offs e vs : v_object exw_volume n = Some o -> placed_record exw_img exw_volume n q data ->
  has_list exw_img exw_volume n q data nt before lo after bs offs e vs ->
  cluster_size nt = 512 /\ file_record_size nt = 1024 /\
  (n = 12 /\ data = exv_data exw_rec12 12 /\ bs = exw_list12 /\ SpecAttrList.entries_of data lo offs e = [0; 32; 64] /\ vs = exw_views12 \/
   n = 13 /\ data = exv_data exw_rec13 13 /\ bs = exw_list13 /\ SpecAttrList.entries_of data lo offs e = [0; 32; 64; 96] /\ vs = exw_views13).
Proof.
  intros Ho (Hr & _) [Ec Er Hff]. change (v_cluster exw_volume) with 512 in Ec. change (v_record exw_volume) with 1024 in Er. split; [exact Ec|]. split; [exact Er|].
  destruct Hff as [_ _ _ _ _ _ Hw _ _ Ht Hc _ Hl _ Hv]. unfold f_data, f_number in *. cbn [f_rec rec_data] in *. change (v_mft exw_volume) with exw_ml in *.
  assert (Hin : In lo (before ++ lo :: after)) by apply in_elt. set (l := before ++ lo :: after) in *. clearbody l. clear before after.
  assert (R : forall x, attr_content (cluster_size nt) exw_img data lo x -> attr_resident_at data lo -> attr_value_at data lo x).
  { intros x K1 K2. inversion K1; auto. contradiction. }
  revert Ho. cbn [v_object exw_volume]. unfold exw_object.
  destruct (n =? 5) eqn:E5.
  { intros _. apply Z.eqb_eq in E5. subst n. exfalso. pose proof (exw_numbered_fun _ _ _ Hr exw_numbered5). subst data.
    assert (l = [56; 152]) by (refine (proj1 (walk_fun _ _ _ _ Hw _ true _)); apply walkb_ok; vm_compute; reflexivity). subst l.
    repeat (destruct Hin as [<-|Hin]; [vm_compute in Ht; discriminate Ht|]); destruct Hin. }
  destruct (n =? 12) eqn:E12.
  { intros _. apply Z.eqb_eq in E12. subst n. left. split; [reflexivity|]. pose proof (exw_numbered_fun _ _ _ Hr exw_numbered12). subst data. split; [reflexivity|].
    destruct (walk_fun _ _ _ _ Hw _ _ exw_walk12) as [-> _].
    destruct Hin as [<-|[<-|[<-|[]]]]; try (vm_compute in Ht; discriminate Ht).
    assert (bs = exw_list12). { destruct (R _ Hc) as (_ & ->); vm_compute; reflexivity. } subst bs. split; [reflexivity|].
    assert (W : list_walk exw_list12 0 [0; 32; 64] ListDone) by (apply (lwalk_ok 9); vm_compute; reflexivity).
    destruct (list_walk_det _ _ _ _ Hl _ _ W) as [-> ->]. split; [reflexivity|].
    exact (listed_fun _ nt exw_nt _ _ _ exw_bytes Ec Er _ _ _ Hv _ (exw_listed12 exw_nt eq_refl eq_refl)). }
  destruct (n =? 13) eqn:E13; [|discriminate].
  intros _. apply Z.eqb_eq in E13. subst n. right. split; [reflexivity|]. pose proof (exw_numbered_fun _ _ _ Hr exw_numbered13). subst data. split; [reflexivity|].
  destruct (walk_fun _ _ _ _ Hw _ _ exw_walk13) as [-> _].
  destruct Hin as [<-|[<-|[]]]; try (vm_compute in Ht; discriminate Ht).
  assert (bs = exw_list13). { destruct (R _ Hc) as (_ & ->); vm_compute; reflexivity. } subst bs. split; [reflexivity|].
  assert (W : list_walk exw_list13 0 [0; 32; 64; 96] ListDone) by (apply (lwalk_ok 9); vm_compute; reflexivity).
  destruct (list_walk_det _ _ _ _ Hl _ _ W) as [-> ->]. split; [reflexivity|].
  exact (listed_fun _ nt exw_nt _ _ _ exw_bytes Ec Er _ _ _ Hv _ (exw_listed13 exw_nt eq_refl eq_refl)).
Qed.
Lemma exw_whole : whole_attributes exw_img exw_volume.
Proof.
  split.
  - intros n o data offs. cbn [v_object exw_volume]. unfold exw_object.
    destruct (n =? 5) eqn:E5.
    { intros _ Hr Hw. apply Z.eqb_eq in E5. subst n. pose proof (exw_numbered_fun _ _ _ Hr exw_numbered5). subst data.
      assert (offs = [56; 152]) by (refine (proj1 (walk_fun _ _ _ _ Hw _ true _)); apply walkb_ok; vm_compute; reflexivity). subst offs. exact exw_whole5. }
    destruct (n =? 12) eqn:E12.
    { intros _ Hr Hw. apply Z.eqb_eq in E12. subst n. pose proof (exw_numbered_fun _ _ _ Hr exw_numbered12). subst data.
      destruct (walk_fun _ _ _ _ Hw _ _ exw_walk12) as [-> _]. exact exw_whole12. }
    destruct (n =? 13) eqn:E13; [|discriminate].
    intros _ Hr Hw. apply Z.eqb_eq in E13. subst n. pose proof (exw_numbered_fun _ _ _ Hr exw_numbered13). subst data.
    destruct (walk_fun _ _ _ _ Hw _ _ exw_walk13) as [-> _]. exact exw_whole13.
  - intros n o q data nt before lo after bs offs e vs H1 H2 H3.
    destruct (exw_lists _ _ _ _ _ _ _ _ _ _ _ _ H1 H2 H3) as (Ec & Er & [(-> & _ & -> & -> & _)|(-> & _ & -> & -> & _)]); change (v_mft exw_volume) with exw_ml.
    + do 2 (apply Forall_cons; [left; vm_compute; reflexivity|]). apply Forall_cons; [|apply Forall_nil]. right.
      exists 7168, (exv_data exw_rec6 6), 56. rewrite Ec. split; [exact (exw_stored6 nt Ec Er)|]. split; [exact exw_locates6|exact exw_whole6].
    + apply Forall_cons; [right; exists 8192, (exv_data exw_rec7 7), 56; rewrite Ec; split; [exact (exw_stored7 nt Ec Er)|split; [exact exw_locates7|exact exw_whole7]]|].
      apply Forall_cons; [left; vm_compute; reflexivity|].
      apply Forall_cons; [right; exists 8192, (exv_data exw_rec7 7), 128; rewrite Ec; split; [exact (exw_stored7 nt Ec Er)|split; [exact exw_locates7_data|exact exw_whole7_data]]|].
      apply Forall_cons; [right; exists 9216, (exv_data exw_rec8 8), 56; rewrite Ec; split; [exact (exw_stored8 nt Ec Er)|split; [exact exw_locates8|exact exw_whole8]]|apply Forall_nil].
Qed.
Ltac standard_at := unfold whole_standard; first [vm_compute; discriminate|
  intros _; split; [vm_compute; reflexivity|]; split; [vm_compute; discriminate|]; eexists; split; [split; [vm_compute; discriminate|reflexivity]|vm_compute; discriminate]].
Lemma exw_standard : whole_standard_information exw_img exw_volume.
Proof.
  split.
  - intros n o data offs x. cbn [v_object exw_volume]. unfold exw_object.
    destruct (n =? 5) eqn:E5.
    { intros _ Hr Hw Hx. apply Z.eqb_eq in E5. subst n. pose proof (exw_numbered_fun _ _ _ Hr exw_numbered5). subst data.
      assert (offs = [56; 152]) by (refine (proj1 (walk_fun _ _ _ _ Hw _ true _)); apply walkb_ok; vm_compute; reflexivity). subst offs.
      repeat (destruct Hx as [<-|Hx]; [standard_at|]). destruct Hx. }
    destruct (n =? 12) eqn:E12.
    { intros _ Hr Hw Hx. apply Z.eqb_eq in E12. subst n. pose proof (exw_numbered_fun _ _ _ Hr exw_numbered12). subst data.
      destruct (walk_fun _ _ _ _ Hw _ _ exw_walk12) as [-> _]. repeat (destruct Hx as [<-|Hx]; [standard_at|]). destruct Hx. }
    destruct (n =? 13) eqn:E13; [|discriminate].
    intros _ Hr Hw Hx. apply Z.eqb_eq in E13. subst n. pose proof (exw_numbered_fun _ _ _ Hr exw_numbered13). subst data.
    destruct (walk_fun _ _ _ _ Hw _ _ exw_walk13) as [-> _]. repeat (destruct Hx as [<-|Hx]; [standard_at|]). destruct Hx.
  - intros n o q data nt before lo after bs offs e vs w H1 H2 H3.
    destruct (exw_lists _ _ _ _ _ _ _ _ _ _ _ _ H1 H2 H3) as (_ & _ & [(_ & _ & _ & _ & ->)|(_ & _ & _ & _ & ->)]); intros Hx;
    repeat (destruct Hx as [<-|Hx]; [cbn [at_view view_at]; standard_at|]); destruct Hx.
Qed.
(** Commands: dir, cd SUB, dir, get In, attr_runs in, fileinfo in, fileinfo /0xC. *)
Definition exw_commands : list command :=
  [DoDir; DoCd [83; 85; 66]; DoDir; DoGet [73; 110]; DoAttr true exv_in; DoFileinfo exv_in; DoFileinfo [47; 48; 120; 67]].
Lemma exw_commands_ok : Forall (command_ok exw_img exw_volume) exw_commands.
Proof.
  assert (N : forall arg, Forall unit_ok arg -> (forall text n, arg = 47 :: text -> parse_number text = Some n -> v_object exw_volume n <> None) -> names_files exw_volume arg).
  { intros arg Hu H. split; auto. intros text n E Hn. apply (H text n E). now apply parse_number_spec. }
  assert (G : forall arg, Forall unit_ok arg -> (forall text n, fst (split_colon arg) = 47 :: text -> parse_number text = Some n -> v_object exw_volume n <> None) ->
    command_ok exw_img exw_volume (DoGet arg)).
  { intros arg Hu H. split; auto. intros file stream Hs. split; [destruct Hs as (_ & [-> | [-> _]]); auto; now apply Forall_app in Hu|].
    intros text n -> Hn. apply (H text n); [|now apply parse_number_spec].
    destruct (split_colon arg) as [a b] eqn:Es. cbn [fst]. destruct (splits_fun _ _ _ _ _ (split_colon_spec arg _ _ Es) Hs) as (E & _). exact E. }
  unfold exw_commands.
  repeat (apply Forall_cons; [first [exact Logic.I|now apply exv_units_ok|apply G; [now apply exv_units_ok|intros text n E; discriminate E]
    |split; [apply N; [now apply exv_units_ok|intros text n E; arg_is [48; 120; 67]]|first [exact exw_whole|exact exw_standard]]]|]). apply Forall_nil.
Qed.
