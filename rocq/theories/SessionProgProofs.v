(** * Proofs for C75: all operations are programs that seek and read, part 3. *)
From Coq Require Import Lia.
From Verif Require Import Base Dev Types Record DataRuns Stream NonResident Resident BootSector Attribute File Structured AttrList Upcase Index Time Volume Shell SectorReader BufReader
  Spec SpecMisc SpecFaults SpecStack BaseProofs DevProofs StackProofs FaultProofs ReaderUseProofs ReaderProgProofs.

Ltac icall lem := eapply (isp_bind _ _ lem); let b := fresh "b" in intros b; cbv beta.
Ltac ipure := exact (isp_pure _).

Lemma isp_ret {A} (a : A) : isp (mret a).
Proof. exact (isp_pure (Ok a)). Qed.
Lemma isp_lift {A} (r : res A) : isp (mlift r).
Proof. exact (isp_pure r). Qed.
Lemma isp_mbind {A B} (m : M A) (f : A -> M B) : isp m -> (forall a, isp (f a)) -> isp (mbind m f).
Proof. intros H1 H2. unfold mbind. icall H1. destruct b as [a|x| |]; [apply H2|ipure..]. Qed.
Ltac isims := repeat match goal with
    | |- isp (mret _) => apply isp_ret
    | |- isp (mlift _) => apply isp_lift
    | |- isp (mbind _ _) => apply isp_mbind; [|intros ?]
    end.

Lemma isp_run_read r n : isp (run_read r n).
Proof.
  destruct (run_remaining r =? 0) eqn:E; [refine (isp_ext _ _ _ (isp_pure (r, Ok []))); intros d _; unfold run_read; rewrite E; reflexivity|].
  destruct (r_pos r) as [p|] eqn:Ep.
  2:{ refine (isp_ext _ _ _ (isp_pure (snd (run_read r n no_dev)))). intros d _. unfold run_read. rewrite E, Ep. reflexivity. }
  destruct (U64_MAX <? p + r_sp r) eqn:Eo.
  { refine (isp_ext _ _ _ (isp_pure (snd (run_read r n no_dev)))). intros d _. unfold run_read. rewrite E, Ep, Eo. reflexivity. }
  refine (isp_ext (fun d => match device_access (p + r_sp r) (Z.min n (run_remaining r)) false d with (d1, a) => (d1, match a with Ok bs => (mkRun (Some p) (r_alloc r) (r_sp r + zlen bs), Ok bs) | e => (r, e) end) end) _ _ _).
  { intros d _. rewrite (run_is_access r n d p) by (auto; lia). reflexivity. }
  icall (isp_access (p + r_sp r) (Z.min n (run_remaining r)) false). ipure.
Qed.
Lemma isp_data_run s n : isp (ss_read_data_run s n).
Proof.
  unfold ss_read_data_run. destruct (ss_run s) as [r|]; [|ipure]. destruct (_ <=? _); [ipure|]. cbv zeta. destruct (_ =? 0); [ipure|].
  icall (isp_run_read r (Z.min n (Z.max 0 (ss_size s - ss_pos s)))). destruct b as [r1 [bs|x| |]]; ipure.
Qed.
Section Stream.
  Variable S0 : Type.
  Variable o : stream_ops S0.
  Hypothesis Ha : forall s, isp (so_advance o s).
  Hypothesis Hr : forall s, isp (so_rewind o s).
  Lemma isp_read_loop k : forall s n acc, isp (stream_read_loop o k s n acc).
  Proof.
    induction k as [|k IH]; intros s n acc; cbn [stream_read_loop]; destruct (n <=? zlen acc); try ipure.
    icall (isp_data_run (so_ss o s) (n - zlen acc)). destruct b as [ss1 [[|x t]|x| |]]; try ipure; [|apply IH].
    icall (Ha (so_set o s ss1)). destruct b as [s2 [[|]|x| |]]; try ipure. apply IH.
  Qed.
  Lemma isp_seek_loop k : forall s st n, isp (stream_seek_loop o k s st n).
  Proof.
    induction k as [|k IH]; intros s st n; cbn [stream_seek_loop]; destruct (n <=? 0); try ipure.
    destruct (ss_seek_data_run (so_ss o s) st n) as [[ss1 l1] [[|]|x| |]]; try ipure. icall (Ha (so_set o s ss1)). destruct b as [s2 [[|]|x| |]]; try ipure. apply IH.
  Qed.
  Lemma isp_stream_seek k s len pos : isp (stream_seek o k s len pos).
  Proof.
    assert (F : forall s st n p, isp (fun d => stream_seek_finish o p (stream_seek_loop o k s st n d))).
    { intros s' st n p. unfold stream_seek_finish. icall (isp_seek_loop k s' st n). destruct b as [s1 [u|x| |]]; try ipure. destruct p; try ipure. cbv zeta. destruct (U64_MAX <? _); ipure. }
    unfold stream_seek. destruct (optimize_seek (so_ss o s) pos len) as [[n|n|n]|x| |]; try ipure.
    - icall (Hr s). destruct b as [s1 [u|x| |]]; try ipure. apply F.
    - destruct (0 <=? n); [|ipure]. apply F.
  Qed.
End Stream.
Lemma nr_fuel_quiet v d : quiet d -> nr_fuel v d = (3 * length (nv_data v) + 6)%nat.
Proof. intros (H & _). unfold nr_fuel. rewrite H. reflexivity. Qed.
Lemma isp_nr_advance s : isp (so_advance nr_ops s).
Proof. cbn. ipure. Qed.
Lemma isp_nr_rewind s : isp (so_rewind nr_ops s).
Proof. cbn. ipure. Qed.
Lemma isp_nr_read v n : isp (nr_read v n).
Proof.
  refine (isp_ext (stream_read_loop nr_ops (3 * length (nv_data v) + 6) v n []) _ _ _); [intros d Hd; unfold nr_read; rewrite nr_fuel_quiet by exact Hd; reflexivity|].
  apply isp_read_loop, isp_nr_advance.
Qed.
Lemma isp_nr_seek v pos : isp (nr_seek v pos).
Proof.
  refine (isp_ext (stream_seek nr_ops (3 * length (nv_data v) + 6) v (nr_len v) pos) _ _ _); [intros d Hd; unfold nr_seek; rewrite nr_fuel_quiet by exact Hd; reflexivity|].
  apply isp_stream_seek; [apply isp_nr_advance|apply isp_nr_rewind].
Qed.
Lemma isp_res_read v n : isp (res_read v n).
Proof. unfold res_read. cbv zeta. destruct (_ =? 0); [ipure|]. destruct (idx_range _ _ _); ipure. Qed.
Lemma isp_res_seek v pos : isp (res_seek v pos).
Proof. unfold res_seek. destruct (seek_contiguous _ _ _). ipure. Qed.
Lemma isp_sv_read v n : isp (sv_read v n).
Proof. unfold sv_read. destruct v as [v|v]; [icall (isp_res_read v n)|icall (isp_nr_read v n)]; destruct b; ipure. Qed.
Lemma isp_sv_seek v pos : isp (sv_seek v pos).
Proof. unfold sv_seek. destruct v as [v|v]; [icall (isp_res_seek v pos)|icall (isp_nr_seek v pos)]; destruct b; ipure. Qed.
Section Exact.
  Variable S0 : Type.
  Variable read : S0 -> Z -> dev -> dev * (S0 * res (list Z)).
  Hypothesis Hnim : forall s n, nim gS (read s n).
  Hypothesis Hread : forall s n, isp (read s n).
  Lemma isp_exact_loop k : forall s n acc, isp (rs_read_exact_loop read k s n acc).
  Proof.
    induction k as [|k IH]; intros s n acc; cbn [rs_read_exact_loop]; destruct (n <=? 0); try ipure.
    icall (Hread s n). destruct b as [s1 [[|x t]|x| |]]; try ipure; try apply IH. destruct x; try ipure.
    match goal with |- context [match ?k with Interrupted => _ | _ => _ end] => destruct k end; try ipure. apply IH.
  Qed.
  Lemma isp_exact s n : isp (rs_read_exact read s n).
  Proof.
    refine (isp_ext (rs_read_exact_loop read (Z.to_nat n + 1) s n []) _ _ (isp_exact_loop _ _ _ _)). intros d Hd. unfold rs_read_exact. apply (exact_fuel _ _ Hnim); auto; lia.
  Qed.
  Lemma isp_attached s n : isp (attached read s n).
  Proof. unfold attached. icall (Hread s n). destruct b as [s1 [bs|x| |]]; ipure. Qed.
End Exact.
Definition ispR {S A} (m : RM S A) : Type := forall s, isp (m s).
Lemma ispR_ret {S A} (a : A) : @ispR S A (rm_ret a).
Proof. intros s. unfold rm_ret. ipure. Qed.
Lemma ispR_err {S A} x : @ispR S A (rm_err x).
Proof. intros s. unfold rm_err. ipure. Qed.
Lemma ispR_bind {S A B} (m : RM S A) (f : A -> RM S B) : ispR m -> (forall a, ispR (f a)) -> ispR (rm_bind m f).
Proof. intros Hm Hf s. unfold rm_bind. icall (Hm s). destruct b as [s1 [a|x| |]]; try ipure. apply Hf. Qed.
Lemma ispR_attached {S} (read : S -> Z -> dev -> dev * (S * res (list Z))) n : (forall s n, nim gS (read s n)) -> (forall s n, isp (read s n)) -> ispR (attached_exact read n).
Proof. intros H1 H2 s. unfold attached_exact. refine (isp_exact S (attached read) _ _ s n); intros s' n'; [apply nim_attached|apply isp_attached]; assumption. Qed.
Definition isparser {S A} (new : (Z -> RM S (list Z)) -> position -> Z -> RM S A) : Type := forall rx p len, (forall n, ispR (rx n)) -> ispR (new rx p len).
Lemma isp_le_new {S} (rx : Z -> RM S (list Z)) p : (forall n, ispR (rx n)) -> ispR (le_new rx p).
Proof. intros H. unfold le_new. apply ispR_bind; auto. intros h. cbv zeta. destruct (_ <? _); [apply ispR_err|]. apply ispR_bind; auto. intros a. apply ispR_ret. Qed.
Lemma isp_fn_new {S} : @isparser S _ fn_new.
Proof.
  intros rx p len H. unfold fn_new. destruct (_ <? _); [apply ispR_err|]. apply ispR_bind; auto. intros h. cbv zeta. destruct (_ <? _); [apply ispR_err|].
  destruct (_ <? _); [apply ispR_err|]. apply ispR_bind; auto. intros a. apply ispR_ret.
Qed.
Lemma isp_file_new nt p n : isp (file_new nt p n).
Proof.
  refine (isp_ext (fun d => match device_access p (file_record_size nt) true d with (d1, r) => (d1, let? data := r in file_of_bytes data (Some p) n) end) _ _ _).
  { intros d _. rewrite file_is_access. reflexivity. }
  icall (isp_access p (file_record_size nt) true). ipure.
Qed.
Lemma isp_ntfs_new : isp ntfs_new.
Proof.
  refine (isp_ext (fun d => match device_access 0 512 true d with (d1, r) => (d1, let? b := r in ntfs_of_boot (decode_boot b)) end) _ _ _).
  { intros d _. rewrite open_is_access. reflexivity. }
  icall (isp_access 0 512 true). ipure.
Qed.
Lemma isp_ntfs_file nt n : isp (ntfs_file nt n).
Proof.
  unfold ntfs_file. destruct (checked_mul64 _ _) as [off|]; [|apply isp_lift]. destruct (mft_position nt) as [mp|]; [|apply isp_lift].
  apply isp_mbind; [apply isp_file_new|intros mft]. isims. match goal with |- context [sv_seek ?v _ _] => icall (isp_sv_seek v (SStart off)) end.
  destruct b as [v1 [x|x| |]]; try ipure. destruct (sv_data_position v1); [|ipure]. apply isp_file_new.
Qed.
(** Attribute lists. *)
Lemma isp_alist_next l : isp (alist_next l).
Proof.
  unfold alist_next. destruct l as [sl p|v].
  - destruct sl as [|x t]; [ipure|]. destruct (snd (snd _)); try ipure. destruct (_ <=? _); ipure.
  - destruct (_ <=? _); [ipure|]. icall (isp_le_new (attached_exact nr_read) (nr_data_position v) (fun n => ispR_attached nr_read n nim_nr_read isp_nr_read) v).
    destruct b as [v1 [x|x| |]]; try ipure. icall (isp_nr_seek v (SCurrent (le_length x))). destruct b as [v2 [y|y| |]]; ipure.
Qed.
Lemma isp_next_entry v : isp (lv_next_entry v).
Proof.
  unfold lv_next_entry. destruct (lv_entries v) as [l|]; [|ipure]. icall (isp_alist_next l). destruct b as [l1 [[x|x| |]|]]; try ipure. cbv zeta.
  destruct (_ =? _); [|ipure]. destruct (le_ty x); try ipure. destruct (_ =? _); ipure.
Qed.
Lemma isp_next_attribute v : isp (lv_next_attribute v).
Proof.
  unfold lv_next_attribute, le_to_file. icall (isp_next_entry v). destruct b as [v1 [[x|x| |]|]]; try ipure. icall (isp_ntfs_file (lv_ntfs v) (le_number x)).
  destruct b as [f|y| |]; try ipure. destruct (le_to_attribute x f) as [a|y| |]; try ipure. destruct (lv_attr_runs a) as [[data p]|y| |]; try ipure.
  destruct (druns_next _ _ _ _) as [s [[r|y| |]|]]; ipure.
Qed.
Lemma isp_lv_new nt l i ty n : isp (lv_new nt l i ty n).
Proof. unfold lv_new. icall (isp_next_attribute (mkLv nt l (Some l) i ty n None (ss_new n))). destruct b as [v [x|x| |]]; ipure. Qed.
Lemma isp_lv_rewind v : isp (lv_rewind v).
Proof. unfold lv_rewind. icall (isp_next_attribute (lv_set_ss (lv_set_entries v (Some (lv_initial v))) (ss_new (lv_size v)))). destruct b as [v1 [x|x| |]]; ipure. Qed.
Lemma isp_lv_advance v : isp (lv_advance v).
Proof. unfold lv_advance. destruct (lv_next_data_run v) as [v1 [[|]|x| |]]; try ipure. apply isp_next_attribute. Qed.
Lemma isp_attr_value nt a : isp (attr_value nt a).
Proof. unfold attr_value. destruct (at_entries a); isims. apply isp_lv_new. Qed.
Lemma isp_av_read k v n : isp (av_read k v n).
Proof.
  unfold av_read, lv_read. destruct v as [v|v]; [icall (isp_sv_read v n)|icall (isp_read_loop lval lv_ops isp_lv_advance k v n [])]; destruct b; ipure.
Qed.
Lemma isp_av_seek k v pos : isp (av_seek k v pos).
Proof.
  unfold av_seek, lv_seek. destruct v as [v|v]; [icall (isp_sv_seek v pos)|icall (isp_stream_seek lval lv_ops isp_lv_advance isp_lv_rewind k v (lv_len v) pos)]; destruct b; ipure.
Qed.
Lemma isp_from_aval {A} k (new : (Z -> RM aval (list Z)) -> position -> Z -> RM aval A) v : isparser new -> isp (from_aval k new v).
Proof.
  intros H. unfold from_aval. icall (H (attached_exact (av_read k)) (av_data_position v) (av_len v) (fun n => ispR_attached _ n (nim_av_read k) (isp_av_read k)) v). destruct b; ipure.
Qed.
Lemma isp_structured {A} k nt (new : (Z -> RM aval (list Z)) -> position -> Z -> RM aval A) ty a : isparser new -> isp (attr_structured k nt new ty a).
Proof. intros H. unfold attr_structured. isims; [apply isp_attr_value|apply isp_from_aval; assumption]. Qed.

(** Attributes of a file. *)
Lemma isp_entry_item nt st l x ty : isp (attrs_entry_item nt st l x ty).
Proof.
  unfold attrs_entry_item, le_to_file. cbv zeta. icall (isp_ntfs_file nt (le_number x)). destruct b as [f|y| |]; try ipure. destruct (rbind _ _) as [[a [|]]|y| |]; ipure.
Qed.
Lemma isp_attrs_next nt k : forall st, isp (attrs_next k nt st).
Proof.
  induction k as [|k IH]; intros st; [cbn [attrs_next]; ipure|]. refine (isp_ext _ _ (fun d _ => eq_sym (attrs_next_S k nt st d)) _).
  assert (Hraw : forall st, isp (raw_part k nt st)).
  { clear st. intros st. unfold raw_part. destruct (raw_next _ _) as [s1 [[a|x| |]|]]; try ipure. destruct (attr_ty a) as [ty|x| |]; try ipure.
    destruct (_ =? _); [|ipure]. destruct (attr_value_simple _ _); try ipure. apply IH. }
  destruct (ax_list st) as [l|]; [|apply Hraw]. icall (isp_alist_next l). destruct b as [l1 [[x|x| |]|]]; try ipure; [|apply Hraw].
  destruct (le_ty x) as [ty|y| |]; try ipure. destruct (_ =? _); [apply IH|]. destruct (match ax_skip st with Some (i, t) => _ | None => false end); [apply IH|]. apply isp_entry_item.
Qed.
Lemma isp_search {A} nt (accept : attr_item -> attribute -> M (option A)) : (forall i a, isp (accept i a)) -> forall k st, isp (attrs_search k nt accept st).
Proof.
  intros Hacc. induction k as [|k IH]; intros st; cbn [attrs_search]; [ipure|]. icall (isp_attrs_next nt (S k) st). destruct b as [st1 [[i|x| |]|]]; try ipure.
  destruct (item_to_attribute i) as [a|x| |]; try ipure. icall (Hacc i a). destruct b as [[x|]|x| |]; try ipure. apply IH.
Qed.
Section Fuel.
  Variable fuel : nat.
  Lemma isp_find_attribute nt f ty name : isp (find_attribute fuel nt f ty name).
  Proof. unfold find_attribute. isims. apply isp_search. intros i b. apply isp_lift. Qed.
  Lemma isp_file_name_of nt f ns parent : isp (file_name_of fuel nt f ns parent).
  Proof.
    unfold file_name_of. isims. apply isp_search. intros i b. apply isp_mbind; [apply isp_lift|intros ty]. destruct (negb _); [apply isp_ret|].
    apply isp_mbind; [apply isp_structured, isp_fn_new|intros fn]. apply isp_mbind; [apply isp_lift|intros n]. destruct (negb _); [apply isp_ret|]. destruct (negb _); apply isp_ret.
  Qed.
  Lemma isp_file_data nt f stream : isp (file_data fuel nt f stream).
  Proof. unfold file_data. isims. apply isp_search. intros i b. apply isp_lift. Qed.
  Lemma isp_upcase_read nt : isp (upcase_read fuel nt).
  Proof.
    unfold upcase_read. apply isp_mbind; [apply isp_ntfs_file|intros f]. apply isp_mbind; [apply isp_file_data|intros x]. isims. destruct (negb _); [apply isp_lift|].
    apply isp_mbind; [apply isp_attr_value|intros v]. icall (isp_exact _ _ (nim_av_read fuel) (isp_av_read fuel) v UPCASE_TABLE_SIZE). destruct b as [v1 [bs|q| |]]; ipure.
  Qed.
  Lemma isp_read_upcase nt : isp (read_upcase_table fuel nt).
  Proof. unfold read_upcase_table. isims. apply isp_upcase_read. Qed.
  Lemma isp_irec_new v size : isp (irec_new fuel v size).
  Proof. unfold irec_new. icall (isp_exact _ _ (nim_av_read fuel) (isp_av_read fuel) v size). destruct b as [v1 [bs|x| |]]; ipure. Qed.
  Lemma isp_record_from_vcn nt v size vcn : isp (record_from_vcn fuel nt v size vcn).
  Proof.
    unfold record_from_vcn. apply isp_mbind; [apply isp_lift|intros off]. icall (isp_av_seek fuel v (SCurrent off)). destruct b as [v1 [x|x| |]]; try ipure.
    destruct (_ <=? _); [ipure|]. apply isp_mbind; [apply isp_irec_new|intros r]. apply isp_mbind; [apply isp_lift|intros y]. destruct (_ =? _); [apply isp_ret|apply isp_lift].
  Qed.
  Lemma isp_directory_index nt f : isp (directory_index fuel nt f).
  Proof.
    unfold directory_index. apply isp_mbind; [apply isp_lift|intros dir]. destruct (negb _); [apply isp_lift|]. apply isp_mbind; [apply isp_find_attribute|intros root].
    apply isp_mbind; [apply isp_lift|intros ra]. apply isp_mbind; [apply isp_lift|intros ir]. apply isp_mbind; [apply isp_lift|intros large].
    apply isp_mbind; [|intros alloc; apply isp_lift]. destruct large; isims. apply isp_find_attribute.
  Qed.
  Lemma isp_subnode nt ix vcn : isp (index_subnode fuel nt ix vcn).
  Proof. unfold index_subnode. isims; [apply isp_attr_value|apply isp_record_from_vcn]. Qed.
End Fuel.
Lemma isp_entries_loop sub : (forall vcn, isp (sub vcn)) -> forall k st, isp (entries_loop sub k st).
Proof.
  intros Hsub. induction k as [|k IH]; intros st; cbn [entries_loop]; [ipure|]. destruct (es_iters st) as [|g below]; [ipure|]. destruct (ranges_next g) as [g1 [[r|x| |]|]]; try ipure.
  - cbv zeta. destruct (rbind _ _) as [[y last]|x| |]; try ipure. destruct (ie_subnode_vcn y) as [[vcn|x| |]|]; try ipure.
    + icall (Hsub vcn). destruct b as [sg|x| |]; try ipure. apply IH.
    + destruct last; [apply IH|ipure].
  - destruct (es_following st) as [|[r|] fs]; try ipure. apply IH.
Qed.
Lemma isp_entries_next k nt ix st : isp (entries_next k nt ix st).
Proof. unfold entries_next. apply isp_entries_loop. intros vcn. apply isp_subnode. Qed.
Lemma isp_find_loop {X} (kp : list Z -> position -> res X) cmp sub : (forall vcn, isp (sub vcn)) -> forall k g, isp (find_loop kp cmp sub k g).
Proof.
  intros Hsub. induction k as [|k IH]; intros g; cbn [find_loop]; [ipure|]. destruct (ranges_next g) as [g1 [[r|x| |]|]]; try ipure. destruct (er_to_entry r (rg_data g1)) as [y|x| |]; try ipure.
  destruct (match ie_key kp y with Some _ => _ | None => _ end) as [[| |]|x| |]; try ipure; [|apply IH].
  destruct (ie_subnode_vcn y) as [[vcn|x| |]|]; try ipure. icall (Hsub vcn). destruct b as [sg|x| |]; try ipure. apply IH.
Qed.
Lemma isp_find k nt ix name : isp (file_name_find k nt ix name).
Proof. unfold file_name_find, index_find. apply isp_find_loop. intros vcn. apply isp_subnode. Qed.
Lemma isp_to_file nt x : isp (ie_to_file nt x).
Proof. unfold ie_to_file. isims. apply isp_ntfs_file. Qed.
Lemma isp_volume_info nt : isp (volume_info nt).
Proof. unfold volume_info. isims. apply isp_ntfs_file. Qed.
Lemma isp_volume_name nt : isp (volume_name nt).
Proof. unfold volume_name. icall (isp_ntfs_file nt 3). destruct b; ipure. Qed.

(** ** The example program *)
Lemma isp_pret {A} (a : A) : isp (pret a).
Proof. unfold pret. ipure. Qed.
Lemma isp_plift {A} (r : res A) : isp (plift r).
Proof. unfold plift. ipure. Qed.
Lemma isp_print x : isp (print x).
Proof. unfold print. ipure. Qed.
Lemma isp_pm {A} (m : M A) : isp m -> isp (pm m).
Proof. intros H. unfold pm. icall H. ipure. Qed.
Lemma isp_pbind {A C} (m : P A) (f : A -> P C) : isp m -> (forall a, isp (f a)) -> isp (pbind m f).
Proof. intros H1 H2. unfold pbind. icall H1. destruct b as [l1 [a|x| |]]; try ipure. icall (H2 a). destruct b; ipure. Qed.
Ltac ipsims := repeat match goal with
    | |- isp (pret _) => apply isp_pret
    | |- isp (plift _) => apply isp_plift
    | |- isp (print _) => apply isp_print
    | |- isp (pm _) => apply isp_pm
    | |- isp (pbind _ _) => apply isp_pbind; [|intros ?]
    end.
Section Shell.
  Variable fuel : nat.
  Lemma isp_open : isp (shell_open fuel).
  Proof.
    unfold shell_open. apply isp_mbind; [apply isp_ntfs_new|intros nt0]. apply isp_mbind; [apply isp_read_upcase|intros nt]. apply isp_mbind; [apply isp_ntfs_file|intros root]. apply isp_ret.
  Qed.
  Lemma isp_file_arg nt sh arg : isp (parse_file_arg fuel nt sh arg).
  Proof.
    unfold parse_file_arg. destruct arg as [|c t]; [apply isp_ret|]. destruct (c =? 47).
    { destruct (parse_number t); [|apply isp_ret]. isims. apply isp_ntfs_file. }
    apply isp_mbind; [apply isp_lift|intros dir]. apply isp_mbind; [apply isp_directory_index|intros ix]. icall (isp_find fuel nt ix (c :: t)).
    destruct b as [[x|x| |]|]; try ipure. apply isp_mbind; [apply isp_to_file|intros f; apply isp_ret].
  Qed.
  Lemma isp_first_name nt f parent : forall l, isp (first_file_name fuel nt f parent l).
  Proof. induction l as [|ns t IH]; cbn [first_file_name]; [apply isp_ret|]. apply isp_mbind; [apply isp_file_name_of|intros x]. destruct x; [apply isp_ret|exact IH]. Qed.
  Lemma isp_cd nt sh arg : isp (cd fuel nt sh arg).
  Proof.
    unfold cd. destruct arg as [|c t]; [apply isp_ret|]. destruct (list_eqb _ _); [apply isp_ret|].
    apply isp_mbind; [apply isp_lift|intros dir]. apply isp_mbind; [apply isp_directory_index|intros ix]. icall (isp_find fuel nt ix (c :: t)).
    destruct b as [[x|x| |]|]; try ipure. destruct (ie_key fn_from_slice x) as [[key|y| |]|]; try ipure. destruct (negb _); [ipure|].
    apply isp_mbind; [apply isp_to_file|intros f]. apply isp_mbind; [apply isp_first_name|intros name]. destruct name; apply isp_ret.
  Qed.
  Lemma isp_dir_loop nt ix k : forall st acc, isp (dir_loop fuel k nt ix st acc).
  Proof.
    induction k as [|k IH]; intros st acc; cbn [dir_loop]; [ipure|]. icall (isp_entries_next fuel nt ix st). destruct b as [st1 [[x|x| |]|]]; try ipure.
    destruct (ie_key fn_from_slice x) as [[key|y| |]|]; try ipure. apply IH.
  Qed.
  Lemma isp_dir nt sh : isp (dir fuel nt sh).
  Proof.
    assert (Hs : isp (try f <- current_dir sh; directory_index fuel nt f)) by (apply isp_mbind; [apply isp_lift|intros f; apply isp_directory_index]).
    unfold dir. icall Hs. destruct b as [ix|x| |]; try ipure. apply isp_dir_loop.
  Qed.
  Lemma isp_get_loop k : forall v acc, isp (get_loop fuel k v acc).
  Proof.
    induction k as [|k IH]; intros v acc; cbn [get_loop]; [ipure|]. icall (isp_av_read fuel v 4096). destruct b as [v1 [bs|x| |]]; try ipure. destruct (zlen bs =? 0); [ipure|]. apply IH.
  Qed.
  Lemma isp_get_value nt sh arg : isp (get_value fuel nt sh arg).
  Proof.
    unfold get_value. destruct (split_colon arg) as [file stream]. apply isp_mbind; [apply isp_file_arg|intros x]. destruct x as [f|m]; [|apply isp_ret].
    apply isp_mbind; [apply isp_file_data|intros y]. destruct y as [i|]; [|apply isp_ret]. isims. apply isp_attr_value.
  Qed.
  Lemma isp_get nt sh arg : isp (get fuel nt sh arg).
  Proof.
    unfold get. icall (isp_get_value nt sh arg). destruct b as [[v|m]|x| |]; try ipure. icall (isp_get_loop fuel v []). destruct b; ipure.
  Qed.
  Lemma isp_run_lines cs data p inner k : forall i s, isp (run_lines k cs data p inner i s).
  Proof. induction k as [|k IH]; intros i s; cbn [run_lines]; [apply isp_plift|]. destruct (druns_next cs data p s) as [s1 [x|]]; [|apply isp_pret]. ipsims. apply IH. Qed.
  Lemma isp_attr_print nt runs inner n a : isp (attr_print fuel nt runs inner n a).
  Proof.
    unfold attr_print. ipsims. destruct runs; [|apply isp_pret]. ipsims; [apply isp_attr_value|].
    match goal with |- context [match ?v with AVSimple _ => _ | AVList _ => _ end] => destruct v as [[x|x]|x] end; try apply isp_pret. apply isp_run_lines.
  Qed.
  Lemma isp_list_lines nt runs self k : forall l, isp (list_lines fuel k nt runs self l).
  Proof.
    induction k as [|k IH]; intros l; cbn [list_lines]; [ipure|]. icall (isp_alist_next l). destruct b as [l1 [x|]]; [|ipure].
    match goal with |- isp (fun d => ?f d) => change (isp f) end. ipsims. destruct (_ =? _); [apply IH|]. ipsims; [apply isp_ntfs_file|apply isp_attr_print|apply IH].
  Qed.
  Lemma isp_attr_loop nt runs f k : forall s, isp (attr_loop fuel k nt runs f s).
  Proof.
    induction k as [|k IH]; intros s; cbn [attr_loop]; [apply isp_plift|]. destruct (raw_next f s) as [s1 [x|]]; [|apply isp_pret].
    ipsims; [apply isp_attr_print| |apply IH]. destruct (_ =? _); ipsims. apply isp_list_lines.
  Qed.
  Lemma isp_attr nt sh runs arg : isp (attr fuel nt sh runs arg).
  Proof.
    unfold attr. ipsims; [apply isp_file_arg|]. match goal with |- context [match ?v with Done _ => _ | Said _ => _ end] => destruct v as [f|m] end; [|apply isp_pret].
    unfold attr_file. ipsims. apply isp_attr_loop.
  Qed.
  Lemma isp_attribute_info nt a : isp (attribute_info fuel nt a).
  Proof.
    unfold attribute_info. destruct (attr_ty a) as [ty|x| |]; try apply isp_pret; try apply isp_plift.
    destruct (ty =? TY_StandardInformation); [unfold standard_line; ipsims|]. destruct (ty =? TY_FileName); [unfold name_line; ipsims; apply isp_structured, isp_fn_new|].
    destruct (ty =? TY_Data); [unfold stream_line; ipsims|apply isp_pret].
  Qed.
  Lemma isp_info_loop nt k : forall st, isp (info_loop fuel k nt st).
  Proof.
    induction k as [|k IH]; intros st; cbn [info_loop]; [ipure|]. icall (isp_attrs_next nt fuel st). destruct b as [st1 [x|]]; [|ipure].
    match goal with |- isp (fun d => ?f d) => change (isp f) end. ipsims; [apply isp_attribute_info|apply IH].
  Qed.
  Lemma isp_fileinfo nt sh arg : isp (fileinfo fuel nt sh arg).
  Proof.
    unfold fileinfo. ipsims; [apply isp_file_arg|]. match goal with |- context [match ?v with Done _ => _ | Said _ => _ end] => destruct v as [f|m] end; [|apply isp_pret].
    unfold fileinfo_file, record_line. ipsims. apply isp_info_loop.
  Qed.
  Lemma isp_label nt : isp (label_line nt).
  Proof. unfold label_line, print. icall (isp_volume_name nt). destruct b as [[n|x| |]|]; ipure. Qed.
  Lemma isp_fsinfo nt : isp (fsinfo nt).
  Proof. unfold fsinfo. ipsims; [apply isp_volume_info|apply isp_label]. Qed.
  Lemma isp_command nt sh c : isp (run_command fuel nt sh c).
  Proof.
    unfold run_command. destruct c; try ipure.
    - icall (isp_cd nt sh arg). destruct b as [[sh1|m]|x| |]; ipure.
    - icall (isp_dir nt sh). destruct b; ipure.
    - icall (isp_get nt sh arg). destruct b; ipure.
    - icall (isp_attr nt sh with_runs arg). destruct b; ipure.
    - icall (isp_fileinfo nt sh arg). destruct b; ipure.
    - icall (isp_fsinfo nt). destruct b; ipure.
  Qed.
  (** Results without the device. *)
  Definition isp0 {X} (m : dev -> X) : Type := { pr : prog X | asks_ok pr /\ forall d e, quiet d -> near d e -> snd (on_device pr d) = m e }.
  Lemma isp0_pure {X} (x : X) : isp0 (fun _ => x).
  Proof. exists (Return x). split; [exact I|]. reflexivity. Qed.
  Lemma isp0_bind {X Y} (m : dev -> dev * X) (f : X -> dev -> Y) : isp m -> (forall x, isp0 (f x)) -> isp0 (fun d => match m d with (d1, x) => f x d1 end).
  Proof.
    intros [pr (Ho & Hp)] Hf. exists (pr_bind pr (fun x => proj1_sig (Hf x))). split; [apply pr_bind_ok; [exact Ho|intros x; exact (proj1 (proj2_sig (Hf x)))]|].
    intros d e Hd Hn. rewrite pr_bind_run. destruct (Hp d e Hd Hn) as (A & B & C). destruct (m e) as [e1 x]. cbn [fst snd] in B, C. rewrite C. exact (proj2 (proj2_sig (Hf x)) _ _ A B).
  Qed.
  Lemma isp0_map {X Y} (f : X -> Y) (m : dev -> X) : isp0 m -> isp0 (fun d => f (m d)).
  Proof.
    intros [pr (Ho & Hp)]. exists (pr_bind pr (fun x => Return (f x))). split; [apply pr_bind_ok; [exact Ho|exact (fun _ => I)]|].
    intros d e Hd Hn. rewrite pr_bind_run. cbn [on_device snd]. f_equal. apply Hp; assumption.
  Qed.
  Lemma isp_commands nt : forall cs sh, isp0 (run_commands fuel nt sh cs).
  Proof.
    induction cs as [|c t IH]; intros sh; cbn [run_commands]; [exact (isp0_pure _)|]. eapply (isp0_bind _ _ (isp_command nt sh c)). intros [sh1 r]. cbv beta iota.
    destruct (re_outcome r); try exact (isp0_pure _); exact (isp0_map (cons (r, sh_text sh1)) _ (IH sh1)).
  Qed.
  Lemma isp_session cs : isp0 (session fuel cs).
  Proof.
    unfold session. eapply (isp0_bind _ _ isp_open). intros [[nt sh]|x| |]; cbv beta iota; try exact (isp0_pure _). exact (isp0_map Ok _ (isp_commands nt cs sh)).
  Qed.
End Shell.

(** ** Through the stack *)
Lemma isp0_right {X} (m : dev -> X) : isp0 m -> right_through_stack m.
Proof.
  intros [pr (Ho & Hp)]. exists pr. split; [split; [exact Ho|intros d Hd; exact (Hp d d Hd (near_refl d))]|]. intros sector cap b d Hs Hc Hb Hl Hi.
  assert (Hl' : zlen (d_img d) <= U64_MAX) by (unfold I64_MAX, U64_MAX in *; lia). split.
  - destruct (stack_is_device sector cap Hs Hc pr Ho b d Hb Hl') as (errors & H1 & H2). exists errors. split; [exact H1|].
    rewrite <- (H2 0). apply Hp; [|apply near_refl]. split; [reflexivity|]. split; [|exact Hl]. cbn [failing_device d_seeks]. intros H. destruct (H1 _ H) as [K|K]; [exact (Hi K)|discriminate].
  - intros Hf Hk. rewrite <- (stack_keeps sector cap Hs Hc pr Ho b d Hb Hl' Hf Hk 0). apply Hp; [|apply near_refl]. split; [reflexivity|]. split; [intros []|exact Hl].
Qed.
Lemma isp_right {X} (m : dev -> dev * X) : isp m -> right_through_stack (fun d => snd (m d)).
Proof.
  intros [pr (Ho & Hp)]. apply isp0_right. exists pr. split; [exact Ho|]. intros d e Hd Hn. apply Hp; assumption.
Qed.
Lemma session_right fuel cmds : right_through_stack (session fuel cmds).
Proof. apply isp0_right, isp_session. Qed.
Lemma isp_si_new {S} : @isparser S _ si_new.
Proof.
  intros rx p len H. unfold si_new. destruct (_ <? _); [apply ispR_err|]. apply ispR_bind; auto. intros b1. destruct (_ <=? _); [|apply ispR_ret].
  apply ispR_bind; auto. intros b3. apply ispR_ret.
Qed.
Lemma isp_vi_new {S} : @isparser S _ vi_new.
Proof. intros rx p len H. unfold vi_new. destruct (_ <? _); [apply ispR_err|]. apply ispR_bind; auto. intros b. apply ispR_ret. Qed.
Lemma isp_vn_new {S} : @isparser S _ vn_new.
Proof. intros rx p len H. unfold vn_new. destruct (_ <? _); [apply ispR_err|apply H]. Qed.
Lemma isp_oi_new {S} : @isparser S _ oi_new.
Proof.
  intros rx p len H. unfold oi_new. destruct (_ <? _); [apply ispR_err|]. apply ispR_bind; auto. intros b0.
  apply ispR_bind; [destruct (_ <=? _); [apply ispR_bind; auto; intros b; apply ispR_ret|apply ispR_ret]|intros b1].
  apply ispR_bind; [destruct (_ <=? _); [apply ispR_bind; auto; intros b; apply ispR_ret|apply ispR_ret]|intros b2].
  apply ispR_bind; [destruct (_ <=? _); [apply ispR_bind; auto; intros b; apply ispR_ret|apply ispR_ret]|intros b3]. apply ispR_ret.
Qed.
Lemma isp_index_find {X} (kp : list Z -> position -> res X) cmp k nt ix : isp (index_find kp cmp k nt ix).
Proof. unfold index_find. apply isp_find_loop. intros vcn. apply isp_subnode. Qed.
Lemma isp_index_records k size v : isp (index_records_next k size v).
Proof.
  unfold index_records_next. destruct (_ <=? _); [ipure|]. icall (isp_irec_new k v size). destruct b as [r|x| |]; try ipure.
  icall (isp_av_seek k v (SCurrent size)). destruct b as [v2 [x|x| |]]; ipure.
Qed.
Lemma isp_av_exact k v n : isp (rs_read_exact (av_read k) v n).
Proof. apply isp_exact; [apply nim_av_read|apply isp_av_read]. Qed.
