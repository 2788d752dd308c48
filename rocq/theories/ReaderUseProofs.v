(** * Proofs for C75: all operations are programs that seek and read, part 1. *)
From Coq Require Import Lia.
From Verif Require Import Base Dev Types Record DataRuns Stream NonResident Resident BootSector Attribute File Structured AttrList
  Spec SpecMisc SpecFaults SpecStack BaseProofs StackProofs.

Notation quiet := full_device.
(** The same up to the position of the cursor. *)
Definition near (d e : dev) : Prop := d_img e = d_img d /\ d_reads e = d_reads d /\ d_seeks e = d_seeks d.
Lemma near_quiet d e : near d e -> quiet d -> quiet e.
Proof. intros (H1 & H2 & H3) (Q1 & Q2 & Q3). unfold quiet. rewrite H1, H2, H3. auto. Qed.

(** ** Nothing on a quiet device ends with an interruption *)
Definition ni {A} (r : res A) : Prop := r <> Err (EIo Interrupted).
Definition nii {A} (r : item A) : Prop := r <> Some (Err (EIo Interrupted)).
Definition nim {B} (g : B -> Prop) (m : dev -> dev * B) : Prop := forall d, quiet d -> quiet (fst (m d)) /\ g (snd (m d)).
Definition gS {S A} (p : S * res A) : Prop := ni (snd p).
Definition gSI {S A} (p : S * item A) : Prop := nii (snd p).

Lemma ni_ok {A} (a : A) : ni (Ok a). Proof. discriminate. Qed.
Lemma ni_panic {A} : @ni A Panic. Proof. discriminate. Qed.
Lemma ni_fuel {A} : @ni A OutOfFuel. Proof. discriminate. Qed.
Lemma ni_bind {A B} (r : res A) (f : A -> res B) : ni r -> (forall a, ni (f a)) -> ni (rbind r f).
Proof. intros H1 H2. destruct r; cbn; auto; try discriminate. unfold ni in *. congruence. Qed.
Lemma ni_err {A B} x : @ni A (Err x) -> @ni B (Err x).
Proof. unfold ni. congruence. Qed.
Lemma ni_item {A B} x : @nii A (Some (Err x)) -> @ni B (Err x).
Proof. unfold ni, nii. congruence. Qed.
Lemma ni_item' {A B} x : @ni A (Err x) -> @nii B (Some (Err x)).
Proof. unfold ni, nii. congruence. Qed.
Lemma ni_of_item {A} (r : res A) : nii (Some r) -> ni r.
Proof. unfold ni, nii. congruence. Qed.
Lemma ni_idx l a b : ni (idx_range l a b).
Proof. unfold idx_range. destruct (get_range l a b); discriminate. Qed.
Lemma ni_rd n l o : ni (rd n l o).
Proof. unfold rd. destruct (get_range _ _ _); discriminate. Qed.
Lemma ni_rd_u8 l o : ni (rd_u8 l o). Proof. apply ni_rd. Qed.
Lemma ni_rd_u16 l o : ni (rd_u16 l o). Proof. apply ni_rd. Qed.
Lemma ni_rd_u32 l o : ni (rd_u32 l o). Proof. apply ni_rd. Qed.
Lemma ni_rd_u64 l o : ni (rd_u64 l o). Proof. apply ni_rd. Qed.
Create HintDb ni.
#[export] Hint Resolve ni_ok ni_panic ni_fuel ni_idx ni_rd ni_rd_u8 ni_rd_u16 ni_rd_u32 ni_rd_u64 : ni.
(** Pure functions: by their cases. *)
Ltac nis := repeat (intros; first
  [ solve [auto with ni] | discriminate
  | apply ni_bind
  | match goal with
    | |- ni (if ?b then _ else _) => destruct b
    | |- ni (match ?x with Some _ => _ | None => _ end) => destruct x
    | |- ni (let '(_, _) := ?x in _) => destruct x
    end ]).
Lemma ni_attr_rd n a o : ni (attr_rd n a o).
Proof. unfold attr_rd. nis. Qed.
#[export] Hint Resolve ni_attr_rd : ni.
Lemma ni_attr_length a : ni (attr_length a). Proof. unfold attr_length. nis. Qed.
#[export] Hint Resolve ni_attr_length : ni.
Lemma ni_attr_ty a : ni (attr_ty a). Proof. unfold attr_ty. nis. Qed.
Lemma ni_attr_instance a : ni (attr_instance a). Proof. unfold attr_instance. nis. Qed.
Lemma ni_attr_resident a : ni (attr_is_resident a). Proof. unfold attr_is_resident. nis. Qed.
#[export] Hint Resolve ni_attr_ty ni_attr_instance ni_attr_resident : ni.
Lemma ni_validate_length a : ni (attr_validate_length a). Proof. unfold attr_validate_length. cbv zeta. nis. Qed.
#[export] Hint Resolve ni_validate_length : ni.
Lemma ni_attr_new f o e : ni (attr_new f o e). Proof. unfold attr_new. cbv zeta. nis. Qed.
#[export] Hint Resolve ni_attr_new : ni.
Lemma ni_validate_name a : ni (attr_validate_name a). Proof. unfold attr_validate_name, attr_name_offset, attr_name_length. nis. Qed.
#[export] Hint Resolve ni_validate_name : ni.
Lemma ni_attr_name a : ni (attr_name a). Proof. unfold attr_name, attr_name_offset, attr_name_length. nis. Qed.
#[export] Hint Resolve ni_attr_name : ni.
Lemma ni_nr_data a : ni (attr_nr_data_and_position a). Proof. unfold attr_nr_data_and_position, attr_nr_runs_offset. cbv zeta. nis. Qed.
#[export] Hint Resolve ni_nr_data : ni.
Lemma ni_resident_value a : ni (attr_resident_value a).
Proof. unfold attr_resident_value, attr_validate_resident, attr_resident_value_offset, attr_resident_value_length. nis. Qed.
#[export] Hint Resolve ni_resident_value : ni.
Lemma ni_raw_next f s : nii (snd (raw_next f s)).
Proof.
  unfold raw_next. destruct (get_range _ _ _); [|discriminate]. destruct (_ =? _); [discriminate|]. pose proof (ni_attr_new f s None) as H.
  destruct (attr_new f s None); try discriminate; [destruct (attr_length _); discriminate|]. cbn [snd]. revert H. apply ni_item'.
Qed.
Lemma ni_matches a ty n i : ni (attr_matches a ty n i).
Proof. unfold attr_matches. nis. Qed.
#[export] Hint Resolve ni_matches : ni.
Lemma ni_find_loop k : forall f ty n i s, ni (find_resident_loop k f ty n i s).
Proof.
  induction k as [|k IH]; intros f ty n i s; cbn [find_resident_loop]; [discriminate|]. pose proof (ni_raw_next f s) as H.
  destruct (raw_next f s) as [s1 [r|]]; [|discriminate]. apply ni_bind; [apply ni_of_item; exact H|intros a]. apply ni_bind; [auto with ni|intros m]. destruct m; [discriminate|apply IH].
Qed.
Lemma ni_find f ty n i : ni (find_resident_attribute f ty n i).
Proof. unfold find_resident_attribute, raw_start, f_first_attribute_offset. apply ni_bind; [auto with ni|intros s; apply ni_find_loop]. Qed.
#[export] Hint Resolve ni_find : ni.
Lemma ni_fixup_loop k : forall u p a s l, ni (snd (fixup_loop k u p a s l)).
Proof.
  induction k as [|k IH]; intros u p a s l; cbn [fixup_loop]; [discriminate|]. destruct (idx_range l a _); try discriminate. destruct (idx_range l s _); try discriminate.
  destruct (negb _); [discriminate|apply IH].
Qed.
Lemma ni_fixup r : ni (snd (fixup r)).
Proof.
  unfold fixup, update_sequence_number, update_sequence_array_count, update_sequence_array_start, update_sequence_offset, update_sequence_size.
  match goal with |- context [match ?x with Ok _ => _ | Err _ => _ | Panic => _ | OutOfFuel => _ end] => assert (H : ni x) by nis; destruct x as [[[u c] s]|e| |] end; try exact (ni_err _ H); try discriminate.
  pose proof (ni_fixup_loop (Z.to_nat c) u (rec_position r) s (NTFS_BLOCK_SIZE - 2) (rec_data r)) as G. destruct (fixup_loop _ _ _ _ _ _). exact G.
Qed.
Lemma ni_file_of_bytes l p n : ni (file_of_bytes l p n).
Proof.
  unfold file_of_bytes, file_validate_signature, rec_signature. cbv zeta. apply ni_bind; [nis|intros _]. pose proof (ni_fixup (mkRecord l p)) as H.
  destruct (fixup _) as [r [u|x| |]]; try discriminate; [|exact (ni_err _ H)]. unfold file_validate_sizes, f_allocated_size, f_data_size. nis.
Qed.
#[export] Hint Resolve ni_file_of_bytes : ni.
Lemma ni_variable p l n : ni (read_variable_length p l n).
Proof. unfold read_variable_length. nis. Qed.
Lemma ni_druns cs l p s : nii (snd (druns_next cs l p s)).
Proof.
  unfold druns_next. destruct (zdrop _ _) as [|h t]; [discriminate|]. destruct (h =? 0); [discriminate|]. cbv zeta.
  match goal with |- context [read_variable_length ?a ?b ?c] => pose proof (ni_variable a b c) as H; destruct (read_variable_length a b c) as [[n r1]|e| |] end;
    try discriminate; [|apply (ni_item' _ H)].
  destruct (n =? 0); [discriminate|]. destruct (checked_mul64 _ _); [|discriminate].
  match goal with |- context [read_variable_length ?a ?b ?c] => pose proof (ni_variable a b c) as H2; destruct (read_variable_length a b c) as [[n2 r2]|e| |] end;
    try discriminate; [|apply (ni_item' _ H2)].
  destruct (_ =? 0); [discriminate|]. destruct (lcn_checked_add _ _); [|discriminate]. unfold lcn_position. destruct (checked_mul64 _ _); discriminate.
Qed.
Lemma ni_optimize s p l : ni (optimize_seek s p l).
Proof. unfold optimize_seek, simplify_seek. apply ni_bind; [destruct p; nis|]. intros q. destruct q; nis. Qed.
Lemma ni_nr_run v : ni (snd (nr_next_data_run v)).
Proof.
  unfold nr_next_data_run. match goal with |- context [druns_next ?a ?b ?c ?e] => pose proof (ni_druns a b c e) as H; destruct (druns_next a b c e) as [s [[r|x| |]|]] end;
  try discriminate. exact (ni_item _ H).
Qed.
Lemma ni_nr_new cs l p n : ni (nr_new cs l p n).
Proof. unfold nr_new. match goal with |- context [nr_next_data_run ?v] => pose proof (ni_nr_run v) as H; destruct (nr_next_data_run v) as [v1 [b|x| |]] end; try discriminate. exact (ni_err _ H). Qed.
#[export] Hint Resolve ni_nr_new : ni.
Lemma ni_value_simple cs a : ni (attr_value_simple cs a).
Proof. unfold attr_value_simple, attr_nr_value, attr_nr_data_size. nis. Qed.
#[export] Hint Resolve ni_value_simple : ni.
Lemma ni_le_ty e : ni (le_ty e). Proof. unfold le_ty. nis. Qed.
#[export] Hint Resolve ni_le_ty : ni.
Lemma ni_le_attr e f : ni (le_to_attribute e f). Proof. unfold le_to_attribute. nis. Qed.
Lemma ni_lv_runs a : ni (lv_attr_runs a). Proof. unfold lv_attr_runs. nis. Qed.
#[export] Hint Resolve ni_le_attr ni_lv_runs : ni.

(** Calls. *)
Ltac nicall lem :=
  let H := fresh "Hq" in let G := fresh "Hg" in pose proof lem as (H & G);
  match type of G with _ (snd ?x) => let d1 := fresh "d" in let b := fresh "b" in destruct x as [d1 b]; cbn [fst snd] in H, G | ni (snd ?x) => destruct x; cbn [fst snd] in H, G end.
Ltac nidone := split; cbn [fst snd]; [assumption|]; unfold gS, gSI in *; cbn [snd] in *;
  first [discriminate | assumption | eapply ni_err; eassumption | eapply ni_item; eassumption | eapply ni_item'; eassumption
        | solve [auto with ni] | solve [eapply ni_err; auto with ni] ].

Lemma quiet_seek p : nim ni (dev_seek p).
Proof.
  intros d (H1 & H2 & H3). unfold dev_seek. destruct (d_seeks d) as [|[k|] t] eqn:E; cbn [fst snd].
  - split; [repeat split; auto|discriminate].
  - split; [repeat split; auto; intros K; apply H2; right; exact K|]. intros K. apply H2. left. congruence.
  - split; [repeat split; auto; intros K; apply H2; right; exact K|discriminate].
Qed.
Lemma quiet_read n : nim ni (dev_read n).
Proof. intros d (H1 & H2 & H3). unfold dev_read. rewrite H1. split; [split; auto|discriminate]. Qed.
Lemma quiet_exact_loop k : forall n acc, nim ni (dev_read_exact_loop k n acc).
Proof.
  induction k as [|k IH]; intros n acc d Hd; cbn [dev_read_exact_loop]; destruct (n <=? 0); try (nidone). nicall (quiet_read n d Hd).
  destruct b as [[|x t]|x| |]; try nidone; [apply IH; assumption|]. destruct x; try nidone. destruct k0; try nidone. now destruct Hg.
Qed.
Lemma quiet_exact n : nim ni (dev_read_exact n).
Proof. intros d Hd. unfold dev_read_exact. apply quiet_exact_loop. exact Hd. Qed.
Lemma nim_bind {A B} (m : M A) (f : A -> M B) : nim ni m -> (forall a, nim ni (f a)) -> nim ni (mbind m f).
Proof. intros H1 H2 d Hd. unfold mbind. nicall (H1 d Hd). destruct b; try nidone. apply H2. assumption. Qed.
Lemma nim_lift {A} (r : res A) : ni r -> nim ni (mlift r).
Proof. intros H d Hd. unfold mlift. nidone. Qed.
Lemma nim_run_read r n : nim gS (run_read r n).
Proof.
  intros d Hd. unfold run_read. destruct (_ =? 0); [nidone|]. cbv zeta. destruct (r_pos r) as [p|]; [|nidone]. destruct (U64_MAX <? _); [nidone|].
  nicall (quiet_seek (p + r_sp r) d Hd). destruct b; try nidone. nicall (quiet_read (Z.min n (run_remaining r)) d0 Hq). destruct b; nidone.
Qed.
Lemma nim_data_run s n : nim gS (ss_read_data_run s n).
Proof.
  intros d Hd. unfold ss_read_data_run. destruct (ss_run s) as [r|]; [|nidone]. destruct (_ <=? _); [nidone|]. cbv zeta. destruct (_ =? 0); [nidone|].
  nicall (nim_run_read r (Z.min n (Z.max 0 (ss_size s - ss_pos s))) d Hd). destruct b as [r1 [bs|x| |]]; nidone.
Qed.
Lemma ni_seek_run s st n : ni (snd (ss_seek_data_run s st n)).
Proof.
  unfold ss_seek_data_run. destruct (ss_run s) as [r|]; [|discriminate]. destruct (_ <? _); [|discriminate]. unfold run_seek, seek_contiguous.
  destruct st; [discriminate|]. cbv zeta. destruct (if 0 <=? _ then _ else _); discriminate.
Qed.
Section Stream.
  Variable S0 : Type.
  Variable o : stream_ops S0.
  Hypothesis Ha : forall s, nim gS (so_advance o s).
  Hypothesis Hr : forall s, nim gS (so_rewind o s).
  Lemma nim_read_loop k : forall s n acc, nim gS (stream_read_loop o k s n acc).
  Proof.
    induction k as [|k IH]; intros s n acc d Hd; cbn [stream_read_loop]; destruct (n <=? zlen acc); try nidone.
    nicall (nim_data_run (so_ss o s) (n - zlen acc) d Hd). destruct b as [ss1 [[|x t]|x| |]]; try nidone; [|apply IH; assumption].
    nicall (Ha (so_set o s ss1) d0 Hq). destruct b as [s2 [[|]|x| |]]; try nidone. apply IH; assumption.
  Qed.
  Lemma nim_seek_loop k : forall s st n, nim gS (stream_seek_loop o k s st n).
  Proof.
    induction k as [|k IH]; intros s st n d Hd; cbn [stream_seek_loop]; destruct (n <=? 0); try nidone.
    pose proof (ni_seek_run (so_ss o s) st n) as H. destruct (ss_seek_data_run (so_ss o s) st n) as [[ss1 l1] [[|]|x| |]]; cbn [snd] in H; try nidone.
    nicall (Ha (so_set o s ss1) d Hd). destruct b as [s2 [[|]|x| |]]; try nidone. apply IH; assumption.
  Qed.
  Lemma nim_finish pos x : quiet (fst x) /\ gS (snd x) -> quiet (fst (stream_seek_finish o pos x)) /\ gS (snd (stream_seek_finish o pos x)).
  Proof.
    destruct x as [d [s r]]. cbn [fst snd]. intros (Hd & Hg). unfold stream_seek_finish. destruct r; try nidone. destruct pos; try nidone. cbv zeta. destruct (U64_MAX <? _); nidone.
  Qed.
  Lemma nim_stream_seek k s len pos : nim gS (stream_seek o k s len pos).
  Proof.
    intros d Hd. unfold stream_seek. pose proof (ni_optimize (so_ss o s) pos len) as H. destruct (optimize_seek (so_ss o s) pos len) as [[n|n|n]|x| |]; try nidone.
    - nicall (Hr s d Hd). destruct b as [s1 [u|x| |]]; try nidone. apply nim_finish, nim_seek_loop. assumption.
    - destruct (0 <=? n); [|nidone]. apply nim_finish, nim_seek_loop. assumption.
  Qed.
End Stream.
Lemma nim_nr_advance s : nim gS (so_advance nr_ops s).
Proof. intros d Hd. cbn. pose proof (ni_nr_run s). split; assumption. Qed.
Lemma nim_nr_rewind s : nim gS (so_rewind nr_ops s).
Proof.
  intros d Hd. cbn. split; [assumption|]. unfold nr_rewind, gS. match goal with |- context [nr_next_data_run ?v] => pose proof (ni_nr_run v) as H; destruct (nr_next_data_run v) as [v1 [b|x| |]] end;
  try discriminate. exact (ni_err _ H).
Qed.
Lemma nim_nr_read v n : nim gS (nr_read v n).
Proof. intros d Hd. unfold nr_read. apply nim_read_loop; auto using nim_nr_advance. Qed.
Lemma nim_nr_seek v pos : nim gS (nr_seek v pos).
Proof. intros d Hd. unfold nr_seek. apply nim_stream_seek; auto using nim_nr_advance, nim_nr_rewind. Qed.
Lemma nim_res_read v n : nim gS (res_read v n).
Proof. intros d Hd. unfold res_read. cbv zeta. destruct (_ =? 0); [nidone|]. match goal with |- context [idx_range ?a ?b ?c] => pose proof (ni_idx a b c) as H; destruct (idx_range a b c) end; nidone. Qed.
Lemma nim_res_seek v pos : nim gS (res_seek v pos).
Proof.
  intros d Hd. unfold res_seek, seek_contiguous. destruct pos; cbv zeta; try nidone; (destruct (if 0 <=? _ then _ else _); nidone).
Qed.
Lemma nim_sv_read v n : nim gS (sv_read v n).
Proof. intros d Hd. destruct v as [v|v]; cbn [sv_read]; [nicall (nim_res_read v n d Hd)|nicall (nim_nr_read v n d Hd)]; destruct b; nidone. Qed.
Lemma nim_sv_seek v p : nim gS (sv_seek v p).
Proof. intros d Hd. destruct v as [v|v]; cbn [sv_seek]; [nicall (nim_res_seek v p d Hd)|nicall (nim_nr_seek v p d Hd)]; destruct b; nidone. Qed.
Section Exact.
  Variable S0 : Type.
  Variable read : S0 -> Z -> dev -> dev * (S0 * res (list Z)).
  Hypothesis Hread : forall s n, nim gS (read s n).
  Lemma nim_exact_loop k : forall s n acc, nim gS (rs_read_exact_loop read k s n acc).
  Proof.
    induction k as [|k IH]; intros s n acc d Hd; cbn [rs_read_exact_loop]; destruct (n <=? 0); try nidone.
    nicall (Hread s n d Hd). destruct b as [s1 [[|x t]|x| |]]; try nidone; try (apply IH; assumption). destruct x; try nidone. destruct k0; try nidone. now destruct Hg.
  Qed.
  Lemma nim_exact s n : nim gS (rs_read_exact read s n).
  Proof. intros d Hd. unfold rs_read_exact. apply nim_exact_loop. exact Hd. Qed.
  Lemma nim_attached s n : nim gS (attached read s n).
  Proof. intros d Hd. unfold attached. nicall (Hread s n d Hd). destruct b as [s1 [bs|x| |]]; try nidone. destruct x; nidone. Qed.
  (** Without interruptions the fuel does not matter. *)
  Lemma exact_fuel k : forall j s n acc d, quiet d -> (Z.to_nat n < k)%nat -> (Z.to_nat n < j)%nat -> rs_read_exact_loop read k s n acc d = rs_read_exact_loop read j s n acc d.
  Proof.
    induction k as [|k IH]; intros j s n acc d Hd Hk Hj; [lia|]. destruct j as [|j]; [lia|]. cbn [rs_read_exact_loop]. destruct (n <=? 0) eqn:E; [reflexivity|].
    nicall (Hread s n d Hd). destruct b as [s1 [[|x t]|x| |]]; try reflexivity.
    - assert (0 < zlen (x :: t)) by (rewrite zlen_cons; pose proof (zlen_nonneg t); lia). apply IH; auto; lia.
    - destruct x; try reflexivity. destruct k0; try reflexivity. now destruct Hg.
  Qed.
End Exact.
Definition nimR {S A} (m : RM S A) : Prop := forall s, nim gS (m s).
Lemma nimR_bind {S A B} (m : RM S A) (f : A -> RM S B) : nimR m -> (forall a, nimR (f a)) -> nimR (rm_bind m f).
Proof. intros H1 H2 s d Hd. unfold rm_bind. nicall (H1 s d Hd). destruct b as [s1 [a|x| |]]; try nidone. apply H2. assumption. Qed.
Lemma nimR_attached {S} (read : S -> Z -> dev -> dev * (S * res (list Z))) n : (forall s n, nim gS (read s n)) -> nimR (attached_exact read n).
Proof. intros H s. unfold attached_exact. apply nim_exact. intros s' n'. apply nim_attached. exact H. Qed.
Lemma nimR_le_new {S} (rx : Z -> RM S (list Z)) p : (forall n, nimR (rx n)) -> nimR (le_new rx p).
Proof.
  intros H. unfold le_new. apply nimR_bind; auto. intros h. cbv zeta. destruct (_ <? _); [intros s d Hd; unfold rm_err; nidone|].
  apply nimR_bind; auto. intros n s d Hd. unfold rm_ret. nidone.
Qed.
Lemma quiet_no_dev : quiet no_dev.
Proof. split; [reflexivity|]. split; [intros []|reflexivity]. Qed.
Lemma nim_file_new nt p n : nim ni (file_new nt p n).
Proof. unfold file_new. apply nim_bind; [apply quiet_seek|intros _]. apply nim_bind; [apply quiet_exact|intros l]. apply nim_lift. auto with ni. Qed.
Lemma nim_ntfs_file nt n : nim ni (ntfs_file nt n).
Proof.
  unfold ntfs_file. destruct (checked_mul64 _ _) as [off|]; [|apply nim_lift; discriminate]. destruct (mft_position nt) as [mp|]; [|apply nim_lift; discriminate].
  apply nim_bind; [apply nim_file_new|intros mft]. apply nim_bind; [apply nim_lift; auto with ni|intros a]. apply nim_bind; [apply nim_lift; auto with ni|intros v].
  intros d Hd. nicall (nim_sv_seek v (SStart off) d Hd). destruct b as [v1 [x|x| |]]; try nidone. destruct (sv_data_position v1); [|nidone]. apply nim_file_new. assumption.
Qed.
