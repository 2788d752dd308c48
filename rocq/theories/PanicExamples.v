(** * A tame volume for the examples of PropsPanic.v (C65): a sufficient check by computation, for images without attribute lists and large directories. *)
From Coq Require Import Lia.
From Verif Require Import Base Dev Types Record DataRuns Stream NonResident Resident BootSector Attribute File Structured AttrList Upcase Index Time Volume Shell
  Spec SpecValues SpecMisc SpecIndex SpecTotal SpecPanic BaseProofs DevProofs MiscProofs DataRunsProofs AttributeProofs FileProofs AttrListProofs StructuredProofs NodeProofs IndexRecordProofs IndexProofs IndexTotalProofs EvolveProofs
  SteadyProofs FaultSessionProofs ShellVolumeProofs ValueExamples PanicProofs PanicIndexProofs.

(** ** What a successful read has returned *)
Lemma read_exact_win fuel : forall n acc d d' bs, dev_read_exact_loop fuel n acc d = (d', Ok bs) -> bs = acc ++ win (d_img d) (d_pos d) n /\ zlen (win (d_img d) (d_pos d) n) = Z.max 0 n.
Proof.
  induction fuel as [|k IH]; intros n acc d d' bs E; cbn [dev_read_exact_loop] in E; (destruct (n <=? 0) eqn:En;
    [assert (bs = acc) by congruence; subst; assert (Hw : win (d_img d) (d_pos d) n = []) by (unfold win; apply ztake_0; lia); rewrite Hw, app_nil_r; split; [auto|change (zlen (@nil Z)) with 0; lia]|]); [discriminate|].
  destruct (dev_read n d) as [d1 x] eqn:Er.
  assert (Hx : (x = Err (EIo Interrupted) /\ d_img d1 = d_img d /\ d_pos d1 = d_pos d) \/
    (exists b a, x = Ok b /\ win (d_img d) (d_pos d) n = b ++ a /\ d_img d1 = d_img d /\ d_pos d1 = d_pos d + zlen b) \/ (forall b, x <> Ok b) /\ x <> Err (EIo Interrupted)).
  { unfold dev_read in Er. fold (win (d_img d) (d_pos d) n) in Er. destruct (d_reads d) as [|[j|e] t]; injection Er as <- <-.
    - right. left. do 2 eexists. split; [reflexivity|]. rewrite app_nil_r. auto.
    - right. left. exists (ztake (Z.of_nat j + 1) (win (d_img d) (d_pos d) n)), (zdrop (Z.of_nat j + 1) (win (d_img d) (d_pos d) n)). rewrite ztake_zdrop. auto.
    - destruct e; first [left; split; [reflexivity|auto; fail]|right; right; split; [intros b|]; discriminate]. }
  destruct Hx as [(-> & Hi & Hp)|[(b & a & -> & Hw & Hi & Hp)|(Hx1 & Hx2)]].
  - destruct (IH _ _ _ _ _ E) as (H1 & H2). rewrite Hi, Hp in *. auto.
  - destruct b as [|y b]; [discriminate|]. destruct (IH _ _ _ _ _ E) as (H1 & H2). rewrite Hi, Hp in *. rewrite (win_rest _ _ _ _ _ Hw) in *. rewrite Hw. split; [rewrite H1, <- app_assoc; reflexivity|].
    rewrite zlen_app. pose proof (zlen_nonneg (y :: b)). pose proof (zlen_nonneg a). destruct (win_len (d_img d) (d_pos d) n) as (W & _). rewrite Hw, zlen_app in W. lia.
  - destruct x as [b|y| |]; try discriminate; [exfalso; now apply (Hx1 b)|]. destruct y; try discriminate. match type of Hx2 with Err (EIo ?i) <> _ => destruct i end; try discriminate. exfalso. auto.
Qed.
Lemma seek_read p n d d' bs : (do _u <- dev_seek p; dev_read_exact n) d = (d', Ok bs) -> bs = win (d_img d) p n /\ zlen bs = Z.max 0 n.
Proof.
  unfold mbind, dev_seek. destruct (d_seeks d) as [|[e|] t]; try discriminate; intros E; apply read_exact_win in E; cbn [d_img d_pos] in E; cbn [app] in E; destruct E as (-> & E); auto.
Qed.
Lemma file_new_win nt p n d d' f : file_new nt p n d = (d', Ok f) -> file_of_bytes (win (d_img d) p (file_record_size nt)) (Some p) n = Ok f /\
  zlen (win (d_img d) p (file_record_size nt)) = Z.max 0 (file_record_size nt).
Proof.
  intros E. unfold file_new in E. pose proof (seek_read p (file_record_size nt) d) as H. unfold mbind in *. destruct (dev_seek p d) as [d1 [[]|x| |]]; try discriminate.
  destruct (dev_read_exact _ d1) as [d2 [bs|x| |]]; try discriminate. destruct (H d2 bs eq_refl) as (Hb & Hl). unfold mlift in E. rewrite <- Hb. split; [congruence|auto].
Qed.
Lemma ntfs_file_win nt n d d' f : ntfs_file nt n d = (d', Ok f) -> exists p, file_of_bytes (win (d_img d) p (file_record_size nt)) (Some p) n = Ok f /\
  zlen (win (d_img d) p (file_record_size nt)) = Z.max 0 (file_record_size nt).
Proof.
  unfold ntfs_file. destruct (checked_mul64 _ _) as [off|]; [|discriminate]. destruct (mft_position nt) as [mp|]; [|discriminate]. unfold mbind at 1.
  pose proof (file_new_evolves nt mp 0 d) as (Ev & _). destruct (file_new nt mp 0 d) as [d1 [m|x| |]]; try discriminate. cbn [fst] in Ev. unfold mbind, mlift.
  destruct (find_resident_attribute m TY_Data None None) as [a|x| |]; try discriminate. destruct (attr_value_simple _ a) as [v|x| |]; try discriminate.
  pose proof (sv_seek_evolves v (SStart off) d1) as (Ev2 & _). destruct (sv_seek v (SStart off) d1) as [d2 [v' [q|x| |]]]; try discriminate. cbn [fst] in Ev2.
  destruct (sv_data_position v') as [p|]; [|discriminate]. intros E. apply file_new_win in E. exists p. rewrite <- Ev, <- Ev2. exact E.
Qed.

(** ** Where "FILE" is stored *)
Fixpoint scan (l : list Z) (p : Z) : list Z :=
  match l with [] => [] | _ :: t => let r := scan t (p + 1) in if list_eqb (firstn 4 l) [70; 73; 76; 69] then p :: r else r end.
Lemma scan_in l : forall p q, firstn 4 (skipn q l) = [70; 73; 76; 69] -> In (p + Z.of_nat q) (scan l p).
Proof.
  induction l as [|x t IH]; intros p q E; [rewrite skipn_nil in E; discriminate|]. destruct q as [|q]; cbn [scan].
  - cbn [skipn] in E. assert (L : list_eqb (firstn 4 (x :: t)) [70; 73; 76; 69] = true) by (now apply list_eqb_eq). rewrite L. left. lia.
  - cbn [skipn] in E. apply (IH (p + 1)) in E. replace (p + Z.of_nat (S q)) with (p + 1 + Z.of_nat q) by lia. destruct (list_eqb _ _); [now right|exact E].
Qed.
Lemma signed_at img p n q k f : 4 <= n -> zlen (win img p n) = n -> file_of_bytes (win img p n) q k = Ok f -> In p (scan img 0).
Proof.
  intros Hn Hl E. assert (Hp : 0 <= p). { destruct (win_len img p n) as (_ & H). apply H. intros E0. rewrite E0 in Hl. change (zlen (@nil Z)) with 0 in Hl. lia. }
  unfold file_of_bytes, file_validate_signature, rec_signature, idx_range in E. cbv zeta in E. cbn [rec_data rec_position] in E. rewrite get_range_in in E by lia. cbn [rbind] in E.
  destruct (list_eqb _ _) eqn:Es in E; cbn [rbind] in E; [|discriminate]. clear E. apply list_eqb_eq in Es. unfold slice in Es. rewrite zdrop_0 in Es by lia. unfold win in Es. rewrite from_pos_nonneg in Es by lia.
  rewrite ztake_ztake in Es. rewrite ztake_firstn, zdrop_skipn in Es. replace (Z.to_nat (Z.min (4 - 0) n)) with 4%nat in Es by lia. apply (scan_in _ 0) in Es. now replace (0 + Z.of_nat (Z.to_nat p)) with p in Es by lia.
Qed.

(** ** Checks of one file record *)
Fixpoint offs_of (k : nat) (data : list Z) (off : Z) : list Z :=
  match k with O => [] | S k => if field 4 data off =? 4294967295 then [] else off :: offs_of k data (off + attr_len_at data off) end.
Lemma walk_det data : forall l off b l' b', attr_walk data off l b -> attr_walk data off l' b' -> l' = l /\ b' = b.
Proof.
  induction l as [|o l IH]; intros off b l' b' W W'; inversion W; subst; inversion W'; subst; try (split; reflexivity); try lia; try contradiction; try (unfold attr_fits in *; lia).
  match goal with W1 : attr_walk data _ l _, W2 : attr_walk data _ ?x _ |- _ :: ?x = _ /\ _ => destruct (IH _ _ _ _ W1 W2) as (-> & ->) end. auto.
Qed.
Definition runsb (cs : Z) (runs : list Z) : bool :=
  let l := iterate (druns_next cs runs None) 8 druns_start in
  forallb (fun x => match x with Some (Ok r) => match r_pos r with Some q => q + r_alloc r <=? 2 ^ 64 | None => true end | _ => true end) l &&
  existsb (fun x => match x with None => true | _ => false end) l.
Lemma iterate_app {S A} (f : S -> S * item A) n m s : iterate f (n + m) s = iterate f n s ++ iterate f m (iterate_state f n s).
Proof. revert s. induction n as [|n IH]; intros s; cbn [iterate iterate_state Nat.add app]; [reflexivity|]. destruct (f s) as [s' x]. cbn [app fst]. f_equal. apply IH. Qed.
Lemma iterate_length {S A} (f : S -> S * item A) n s : length (iterate f n s) = n.
Proof. revert s. induction n as [|n IH]; intros s; cbn [iterate]; [reflexivity|]. destruct (f s) as [s' x]. cbn [length]. now rewrite IH. Qed.
Lemma runsb_ok cs runs : 1 <= cs -> bytes_ok runs -> runsb cs runs = true -> runs_in_range cs runs.
Proof.
  intros Hcs Hb H n r q Hin Hq. unfold runsb in H. apply andb_prop in H as (H1 & H2). set (it := iterate (druns_next cs runs None)) in *.
  destruct (druns_iterate_shape cs runs None Hcs Hb (8 + n) druns_start) as (rs & rest & Es & _ & Hr); cbn [dr_off dr_prev druns_start]; try (unfold U64_MAX; lia). fold it in Es.
  pose proof (iterate_app (druns_next cs runs None) 8 n druns_start) as A8. pose proof (iterate_app (druns_next cs runs None) n 8 druns_start) as An. rewrite Nat.add_comm in An. fold it in A8, An.
  apply existsb_exists in H2 as (x & Hx & Hn). destruct x; [discriminate|]. apply In_nth_error in Hx as (i & Hi). apply In_nth_error in Hin as (j & Hj).
  assert (Hi' : nth_error (it (8 + n)%nat druns_start) i = Some None). { rewrite A8, nth_error_app1; auto. apply nth_error_Some. intros E0. unfold item in *. congruence. }
  assert (Hj' : nth_error (it (8 + n)%nat druns_start) j = Some (Some (Ok r))). { rewrite An, nth_error_app1; auto. apply nth_error_Some. intros E0. unfold item in *. congruence. }
  assert (Li : (i < 8)%nat). { pose proof (iterate_length (druns_next cs runs None) 8 druns_start) as L8. fold it in L8. assert (i < length (it 8%nat druns_start))%nat by (apply nth_error_Some; intros E0; unfold item in *; congruence). lia. }
  rewrite Es in Hi', Hj'. assert (Hri : (length rs <= i)%nat).
  { destruct (Nat.le_gt_cases (length rs) i); auto. rewrite nth_error_app1 in Hi' by (rewrite map_length; auto). rewrite nth_error_map in Hi'. destruct (nth_error rs i); discriminate. }
  assert (Hrj : (j < length rs)%nat).
  { destruct (Nat.le_gt_cases (length rs) j) as [L|L]; auto. rewrite nth_error_app2 in Hj' by (rewrite map_length; auto). apply nth_error_In in Hj'. destruct Hr as [Hr|Hr]; rewrite Forall_forall in Hr; apply Hr in Hj'; [discriminate|destruct Hj'; discriminate]. }
  assert (Hin : In (Some (Ok r)) (it 8%nat druns_start)).
  { apply nth_error_In with j. rewrite <- Es, A8 in Hj'. rewrite nth_error_app1 in Hj'; auto. unfold it. rewrite iterate_length. lia. }
  rewrite forallb_forall in H1. specialize (H1 _ Hin). cbn in H1. rewrite Hq in H1. lia.
Qed.
Definition residentb (data : list Z) (o : Z) : bool := field 1 data (o + 8) =? 0.
Definition value_of (data : list Z) (o : Z) : list Z := slice data (o + field 2 data (o + 20)) (o + field 2 data (o + 20) + field 4 data (o + 16)).
Definition attrb (cs : Z) (data : list Z) (o : Z) : bool :=
  negb (attr_type_at data o =? 32) &&
  ((o + 56 <=? zlen data) || residentb data o && (o + 22 <=? zlen data)) &&
  (residentb data o || runsb cs (slice data (o + field 2 data (o + 32)) (o + attr_len_at data o))) &&
  (negb (attr_type_at data o =? 144) || (field 4 (value_of data o) 16 <=? field 4 (value_of data o) 20)) &&
  (negb (attr_type_at data o =? 48) || residentb data o && (o + 22 <=? zlen data) && negb (existsb (Z.eqb 92) (units (slice (value_of data o) 66 (66 + 2 * field 1 (value_of data o) 64))))).
Definition recordb (cs : Z) (data : list Z) : bool :=
  let offs := offs_of 16 data (field 2 data 20) in bytes_okb data && (22 <=? zlen data) && walkb data (field 2 data 20) offs && forallb (attrb cs data) offs && (Nat.ltb (length offs) 16).
Lemma recordb_walk cs data : recordb cs data = true -> bytes_ok data /\ 22 <= zlen data /\ attr_walk data (field 2 data 20) (offs_of 16 data (field 2 data 20)) true /\
  (forall o, In o (offs_of 16 data (field 2 data 20)) -> attrb cs data o = true) /\ (length (offs_of 16 data (field 2 data 20)) < 16)%nat.
Proof.
  intros H. unfold recordb in H. cbv zeta in H. apply andb_prop in H as (H & H5). apply andb_prop in H as (H & H4). apply andb_prop in H as (H & H3). apply andb_prop in H as (H1 & H2).
  splits; [now apply bytes_okb_ok|lia|now apply walkb_ok| |now apply Nat.ltb_lt]. now apply forallb_forall.
Qed.
Lemma recordb_tame cs data : 1 <= cs -> recordb cs data = true -> tame cs data.
Proof.
  intros Hcs H offs clean o W Hin. apply recordb_walk in H as (H1 & H2 & H3 & H4 & _). destruct (walk_det _ _ _ _ _ _ H3 W) as (-> & ->). specialize (H4 o Hin). unfold attrb in H4.
  apply andb_prop in H4 as (H4 & _). apply andb_prop in H4 as (H4 & H7). apply andb_prop in H4 as (H4 & H6). apply andb_prop in H4 as (_ & H5). splits.
  - unfold has_room, attr_resident_at, residentb in *. lia.
  - intros Hn. apply runsb_ok; auto; [now apply bytes_ok_slice|]. unfold residentb, attr_resident_at in *. replace (_ =? 0) with false in H6 by lia. exact H6.
  - intros Ht root (_ & ->) _. rewrite Ht in H7. cbn [negb orb Z.eqb Pos.eqb] in H7. fold (value_of data o). lia.
Qed.
Lemma recordb_plain cs nt f k ns parent d d' fn : recordb cs (f_data f) = true -> file_name_of k nt f ns parent d = (d', Ok (Some fn)) -> ~ In 92 (units (fn_name fn)).
Proof.
  intros H E. apply recordb_walk in H as (H1 & H2 & H3 & H4 & H5). assert (E2 : file_name_of (k + 16) nt f ns parent d = (d', Ok (Some fn))).
  { rewrite (file_name_of_fuel k (k + 16)); [exact E|lia|rewrite E; discriminate]. }
  assert (Ha : forall o, In o (offs_of 16 (f_data f) (field 2 (f_data f) 20)) -> attr_type_at (f_data f) o <> 32 /\
    (attr_type_at (f_data f) o = 48 -> attr_resident_at (f_data f) o /\ o + 22 <= zlen (f_data f) /\ ~ In 92 (units (slice (value_of (f_data f) o) 66 (66 + 2 * field 1 (value_of (f_data f) o) 64))))).
  { intros o Ho. apply H4 in Ho. unfold attrb in Ho. apply andb_prop in Ho as (Ho & H6). apply andb_prop in Ho as (Ho & _). apply andb_prop in Ho as (Ho & _). apply andb_prop in Ho as (Ho & _). split; [lia|]. intros Ht. rewrite Ht in H6. cbn [negb orb Z.eqb Pos.eqb] in H6.
    apply andb_prop in H6 as (H6 & H7). apply andb_prop in H6 as (H6 & H8). unfold residentb in H6. unfold attr_resident_at. splits; try lia. intros Hi. apply Bool.negb_true_iff in H7.
    assert (K : existsb (Z.eqb 92) (units (slice (value_of (f_data f) o) 66 (66 + 2 * field 1 (value_of (f_data f) o) 64))) = true); [|congruence]. apply existsb_exists. exists 92. auto. }
  destruct (file_name_spec nt f ns parent _ _ H1 H2 H3) with (fuel := (k + 16)%nat) (d := d) as (r & Er & Hr); [| |lia|].
  - apply Forall_forall. intros o Ho. exact (proj1 (Ha o Ho)).
  - apply Forall_forall. intros o Ho Ht. destruct (proj2 (Ha o Ho) Ht) as (A1 & A2 & _). auto.
  - rewrite E2 in Er. assert (r = Ok (Some fn)) by congruence. subst r. destruct Hr as (l1 & o & l2 & El & _ & (Ht & bs & (_ & ->) & Hd & _)). fold (value_of (f_data f) o) in Hd. rewrite (dfn_name _ _ Hd).
    apply (Ha o); [|exact Ht]. rewrite El. apply in_or_app. right. now left.
Qed.

(** ** Checks of one directory *)
Fixpoint nodeb (k : nat) (data : list Z) (stop o : Z) : bool :=
  if stop <=? o then true else
  match k with
  | O => false
  | S k => (o + 16 <=? zlen data) && (o + entry_len data o <=? zlen data) && (16 <=? entry_len data o) &&
      (entry_is_last data o || negb (entry_key_len data o =? 0) && nodeb k data stop (o + entry_len data o))
  end.
Lemma nodeb_tame data stop k : forall o, nodeb k data stop o = true -> tame_node data o stop.
Proof.
  induction k as [|k IH]; intros o H offs e W; cbn [nodeb] in H; (destruct (stop <=? o) eqn:Es; [inversion W; subst; try discriminate; lia|]); [discriminate|].
  apply andb_prop in H as (H & H4). inversion W; subst; try discriminate; [unfold entry_fits in *; lia|].
  match goal with L : entry_is_last data o = false |- _ => rewrite L in H4 end. cbn [orb] in H4. apply andb_prop in H4 as (_ & H4). eapply IH; eauto.
Qed.
Definition dirb (ix : index) : bool :=
  match ix_alloc ix with
  | None => bytes_okb (rg_data (ix_root ix)) && (36 <=? ix_record_size ix) && (ix_record_size ix <=? 65535) && (rg_start (ix_root ix) =? 0) && (rg_end (ix_root ix) =? zlen (rg_data (ix_root ix))) &&
      nodeb 16 (rg_data (ix_root ix)) (zlen (rg_data (ix_root ix))) 0
  | Some _ => false
  end.
Section Small.
  Context (nt : ntfs) (img : list Z) (ix : index) (H : dirb ix = true).
  Definition small_state (st : ientries) : Prop := es_following st = [] /\ (es_iters st = [] \/ exists g k, es_iters st = [g] /\ bytes_ok (rg_data g) /\ 0 <= rg_start g /\ rg_end g <= zlen (rg_data g) /\ nodeb k (rg_data g) (rg_end g) (rg_start g) = true).
  Lemma small_next j st d : small_state st -> let '(_, (st', x)) := entries_next j nt ix st d in small_state st' /\ forall e, x = Some (Ok e) -> ie_key_length e <> Ok 0.
  Proof.
    assert (Hal : ix_alloc ix = None) by (unfold dirb in H; destruct (ix_alloc ix); [discriminate|reflexivity]). unfold entries_next. revert st d. generalize j at 2 as m. intros m.
    induction m as [|m IH]; intros [its fs] d (Hf & Hs); cbn [entries_loop es_iters es_following] in *; [split; [split; auto|intros e [=]]|]. subst fs.
    destruct Hs as [->|(g & k & -> & Hb & H0 & He & Hn)]; [split; [split; auto|intros e [=]]|]. destruct g as [data o stop p]. cbn [rg_data rg_start rg_end] in *.
    destruct (ranges_next_spec data Hb stop He o p H0) as (K1 & K2 & K3 & K4). destruct (Z_lt_le_dec o stop) as [L|L].
    2: { rewrite K1 by exact L. split; [split; auto|intros e [=]]. }
    destruct k as [|k]; cbn [nodeb] in Hn; replace (stop <=? o) with false in Hn by lia; [discriminate|]. apply andb_prop in Hn as (Hn & H4). apply andb_prop in Hn as (Hn & H3). apply andb_prop in Hn as (H1 & H2).
    assert (Fi : entry_fits data o) by (unfold entry_fits; lia). rewrite K4 by (auto; lia). cbn [rg_data].
    assert (Dd : forall b : bool, rg_data (if b then mkRanges data (zlen data) stop p else mkRanges data (o + entry_len data o) stop (pos_add p (entry_len data o))) = data) by (intros []; reflexivity).
    rewrite Dd. destruct (range_entry data o p Hb H0 Fi ltac:(lia)) as [(H16 & Ee)|(Hlt & _)]; [|lia]. rewrite Ee. cbn [rbind]. rewrite (entry_last_ok data Hb o p H0 Fi H16). cbn [rbind].
    assert (Hst : small_state (mkIEs [if entry_is_last data o then mkRanges data (zlen data) stop p else mkRanges data (o + entry_len data o) stop (pos_add p (entry_len data o))] [])).
    { split; [reflexivity|]. right. cbn [es_iters]. eexists. exists k. split; [reflexivity|]. pose proof (zlen_nonneg data). destruct (entry_is_last data o); cbn [rg_data rg_start rg_end].
      - splits; auto. destruct k; cbn [nodeb]; replace (stop <=? zlen data) with true by lia; reflexivity.
      - splits; auto; [lia|]. cbn [orb] in H4. now apply andb_prop in H4 as (_ & H4). }
    destruct (entry_subnode_cases data o p Hb H0 Fi H16) as [E|[(y & E)|(vcn & E & _)]]; rewrite E.
    - destruct (entry_is_last data o) eqn:El; [apply IH; exact Hst|]. unfold entries_yield. cbn [es_iters]. rewrite (Dd false). rewrite Ee. split; [exact Hst|]. intros e Eq. assert (e = mkIE (entry_bytes data o) p) by congruence. subst e.
      cbn [orb] in H4. apply andb_prop in H4 as (H4 & _). unfold ie_key_length, rd_u16. cbn [ie_slice]. rewrite rd_in by (rewrite ?entry_bytes_len by auto; lia). intros Eq2. assert (field 2 (entry_bytes data o) 10 = 0) by congruence.
      unfold entry_bytes in *. rewrite field_slice in * by lia. unfold entry_key_len in H4. lia.
    - split; [exact Hst|intros e [=]].
    - unfold index_subnode. rewrite Hal. unfold mlift, mbind. cbn. split; [exact Hst|intros e [=]].
  Qed.
  Lemma dirb_ok : tame_index nt img ix /\ forall j n d1 e, In (Some (Ok e)) (iterate (with_dev (entries_next j nt ix)) n (index_entries ix, d1)) -> ie_key_length e <> Ok 0.
  Proof.
    pose proof H as H'. unfold dirb in H'. destruct (ix_alloc ix) eqn:Ea; [discriminate|]. apply andb_prop in H' as (H' & H6). apply andb_prop in H' as (H' & H5). apply andb_prop in H' as (H' & H4). apply andb_prop in H' as (H' & H3). apply andb_prop in H' as (H1 & H2).
    split; [split; [lia|split; [exact (nodeb_tame _ _ _ _ H6)|intros i a d1 d2 v; rewrite Ea; discriminate]]|]. intros j n.
    assert (S0 : small_state (index_entries ix)). { split; [reflexivity|]. right. cbn. exists (ix_root ix), 16%nat. splits; auto; [now apply bytes_okb_ok|lia|lia|]. replace (rg_end (ix_root ix)) with (zlen (rg_data (ix_root ix))) by lia. now replace (rg_start (ix_root ix)) with 0 by lia. }
    revert S0. generalize (index_entries ix). induction n as [|n IH]; intros st S0 d1 e; cbn [iterate]; [intros []|]. unfold with_dev at 1. cbn [fst snd]. pose proof (small_next j st d1 S0) as N.
    destruct (entries_next j nt ix st d1) as [d2 [st' x]]. destruct N as (N1 & N2). intros [->|Hin]; [now apply N2|eapply IH; eauto].
  Qed.
End Small.

(** ** Checks of an image *)
Section Image.
  Context (img : list Z) (nt0 : ntfs) (Hb : bytes_ok img) (Hboot : ntfs_of_boot (decode_boot (win img 0 512)) = Ok nt0) (Hcs : 1 <= cluster_size nt0) (Hfr : 4 <= file_record_size nt0 <= 65535).
  Context (Hrec : forall p n f, In p (scan img 0) -> file_of_bytes (win img p (file_record_size nt0)) (Some p) n = Ok f -> recordb (cluster_size nt0) (f_data f) = true /\
    forall t, match snd (directory_index 16 (with_table nt0 t) f no_dev) with Ok ix => dirb ix = true | _ => True end).
  Lemma seen_record t f : seen (with_table nt0 t) img f -> exists p n, In p (scan img 0) /\ file_of_bytes (win img p (file_record_size nt0)) (Some p) n = Ok f.
  Proof.
    assert (K : forall p n, file_of_bytes (win img p (file_record_size nt0)) (Some p) n = Ok f /\ zlen (win img p (file_record_size nt0)) = Z.max 0 (file_record_size nt0) ->
      exists p n, In p (scan img 0) /\ file_of_bytes (win img p (file_record_size nt0)) (Some p) n = Ok f).
    { intros p n (E1 & E2). exists p, n. split; [|exact E1]. apply (signed_at img p (file_record_size nt0) (Some p) n f); [lia|rewrite E2; lia|exact E1]. }
    change (file_record_size nt0) with (file_record_size (with_table nt0 t)) in K.
    intros [(mp & d & d' & _ & Hd & E)|(n & d & d' & _ & Hd & E)]; [apply file_new_win in E|apply ntfs_file_win in E as (p & E)]; rewrite Hd in E; eapply K; exact E.
  Qed.
  Lemma image_tame : tame_image img.
  Proof.
    split; [exact Hb|]. intros d d' nt t Hd E. assert (nt = nt0).
    { unfold ntfs_new in E. pose proof (seek_read 0 512 d) as H. unfold mbind in *. destruct (dev_seek 0 d) as [d1 [[]|x| |]]; try discriminate.
      destruct (dev_read_exact 512 d1) as [d2 [bs|x| |]]; try discriminate. destruct (H d2 bs eq_refl) as (Hbs & _). unfold mlift in E. rewrite Hbs, Hd, Hboot in E. congruence. }
    subst nt. cbn zeta.
    assert (R : forall f, seen (with_table nt0 t) img f -> recordb (cluster_size nt0) (f_data f) = true /\ match snd (directory_index 16 (with_table nt0 t) f no_dev) with Ok ix => dirb ix = true | _ => True end).
    { intros f Hf. destruct (seen_record t f Hf) as (p & n & Hp & Ef). destruct (Hrec p n f Hp Ef) as (R1 & R2). split; [exact R1|exact (R2 t)]. }
    splits.
    - split; [exact Hb|]. split; [cbn; lia|]. intros f Hf. apply recordb_tame; [exact Hcs|]. exact (proj1 (R f Hf)).
    - intros f k d0 d1 ix Hf Hd0 Ei. destruct (R f Hf) as (R1 & R2). apply recordb_walk in R1 as (W1 & W2 & W3 & W4 & W5).
      destruct (directory_index_const img (with_table nt0 t) f _ W1 W2 W3) as (r & Hr). { apply Forall_forall. intros o Ho. apply W4 in Ho. unfold attrb in Ho. lia. }
      rewrite Hr in R2 by exact W5. cbn [snd] in R2. assert (E2 : directory_index (k + 16) (with_table nt0 t) f d0 = (d1, Ok ix)). { rewrite (directory_index_fuel k (k + 16)); [exact Ei|lia|rewrite Ei; discriminate]. }
      rewrite Hr in E2 by lia. assert (r = Ok ix) by congruence. subst r. destruct (dirb_ok (with_table nt0 t) img ix R2) as (D1 & D2). split; [exact D1|]. intros j n d2 e _. apply D2.
    - intros f k ns parent d0 d1 fn Hf Hd0 En. exact (recordb_plain _ _ _ _ _ _ _ _ _ (proj1 (R f Hf)) En).
  Qed.
End Image.

(** ** The volume of VolumeExamples.v *)
From Verif Require Import VolumeExamples.
Definition exv_nt : ntfs := match ntfs_of_boot (decode_boot exv_boot) with Ok nt => nt | _ => mkNtfs 0 0 0 None 0 0 None end.
Ltac record_at :=
  match goal with |- forall n f, file_of_bytes ?b (Some ?p) n = Ok f -> _ =>
    let x := constr:(match file_of_bytes b None 0 with Ok f => f_data f | _ => [] end) in let y := eval vm_compute in x in
    intros n f E; assert (E2 : file_of_bytes b (Some p) n = Ok (mkFile (mkRecord y (Some p)) n)) by (vm_compute; reflexivity);
    assert (Ef : f = mkFile (mkRecord y (Some p)) n) by congruence; clear E E2; subst f; split; [vm_compute; reflexivity|intros t; vm_compute; first [exact Logic.I|reflexivity]] end.
Lemma exv_scan : scan (exv_img exv_sub) 0 = [1024; 4096; 6144; 11264; 12288; 13312; 14336].
Proof. vm_compute. reflexivity. Qed.
Lemma exv_tame : tame_image (exv_img exv_sub).
Proof.
  apply (image_tame (exv_img exv_sub) exv_nt); [apply bytes_okb_ok; vm_compute; reflexivity|vm_compute; reflexivity|vm_compute; discriminate|vm_compute; split; discriminate|].
  intros p n f Hp. rewrite exv_scan in Hp. change (file_record_size exv_nt) with 1024. change (cluster_size exv_nt) with 512. revert n f.
  repeat (destruct Hp as [<-|Hp]; [record_at|]). destruct Hp.
Qed.
