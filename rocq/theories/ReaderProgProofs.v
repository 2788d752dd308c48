(** * Proofs for C75: all operations are programs that seek and read, part 2. *)
From Coq Require Import Lia.
From Verif Require Import Base Dev Types Record DataRuns Stream NonResident Resident BootSector Attribute File Structured AttrList Upcase Index Time Volume Shell SectorReader BufReader
  Spec SpecMisc SpecFaults SpecStack BaseProofs DevProofs StackProofs FaultProofs ReaderUseProofs.

(** Values in attribute lists. *)
Lemma nim_alist_next l : nim gSI (alist_next l).
Proof.
  intros d Hd. destruct l as [sl p|v]; cbn [alist_next].
  - destruct sl as [|x t]; [nidone|].
    assert (H : ni (snd (snd (le_new cursor_exact p (res_new (x :: t) p) no_dev)))).
    { refine (proj2 (nimR_le_new cursor_exact p _ _ no_dev quiet_no_dev)). intros n s. unfold cursor_exact. apply nim_exact. intros s' n'. apply nim_res_read. }
    destruct (snd (snd _)); try nidone. destruct (_ <=? _); nidone.
  - destruct (_ <=? _); [nidone|].
    nicall (nimR_le_new (attached_exact nr_read) (nr_data_position v) (fun n => nimR_attached nr_read n nim_nr_read) v d Hd).
    destruct b as [v1 [x|x| |]]; try nidone. nicall (nim_nr_seek v (SCurrent (le_length x)) d0 Hq). destruct b as [v2 [y|y| |]]; nidone.
Qed.
Lemma nim_next_entry v : nim gSI (lv_next_entry v).
Proof.
  intros d Hd. unfold lv_next_entry. destruct (lv_entries v) as [l|]; [|nidone]. nicall (nim_alist_next l d Hd). destruct b as [l1 [[x|x| |]|]]; try nidone. cbv zeta.
  destruct (_ =? _); [|nidone]. pose proof (ni_le_ty x). destruct (le_ty x); try nidone. destruct (_ =? _); nidone.
Qed.
Lemma nim_next_attribute v : nim gS (lv_next_attribute v).
Proof.
  intros d Hd. unfold lv_next_attribute. nicall (nim_next_entry v d Hd). destruct b as [v1 [[x|x| |]|]]; try nidone.
  unfold le_to_file. nicall (nim_ntfs_file (lv_ntfs v) (le_number x) d0 Hq). destruct b as [f|y| |]; try nidone.
  pose proof (ni_le_attr x f). destruct (le_to_attribute x f) as [a|y| |]; try nidone. pose proof (ni_lv_runs a). destruct (lv_attr_runs a) as [[data p]|y| |]; try nidone.
  pose proof (ni_druns (cluster_size (lv_ntfs v)) data p druns_start). destruct (druns_next _ _ _ _) as [s [[r|y| |]|]]; nidone.
Qed.
Lemma nim_lv_rewind v : nim gS (lv_rewind v).
Proof. intros d Hd. unfold lv_rewind. nicall (nim_next_attribute (lv_set_ss (lv_set_entries v (Some (lv_initial v))) (ss_new (lv_size v))) d Hd). destruct b as [v1 [x|x| |]]; nidone. Qed.
Lemma nim_lv_advance v : nim gS (lv_advance v).
Proof.
  intros d Hd. unfold lv_advance. assert (H : ni (snd (lv_next_data_run v))).
  { unfold lv_next_data_run. destruct (lv_attr v) as [a|]; [|discriminate]. destruct (as_runs a) as [s|]; [|discriminate]. cbv zeta.
    match goal with |- context [match ?x with Ok _ => _ | Err _ => _ | Panic => _ | OutOfFuel => _ end] => assert (H : ni x) by nis; destruct x as [[data p]|e| |] end; try exact (ni_err _ H); try discriminate.
    pose proof (ni_druns (cluster_size (lv_ntfs v)) data p s) as G. destruct (druns_next _ _ _ _) as [s1 [[r|y| |]|]]; try discriminate. exact (ni_item _ G). }
  destruct (lv_next_data_run v) as [v1 [[|]|x| |]]; try nidone. apply nim_next_attribute. exact Hd.
Qed.
Lemma nim_lv_read k v n : nim gS (lv_read k v n).
Proof. exact (nim_read_loop lval lv_ops nim_lv_advance k v n []). Qed.
Lemma nim_av_read k v n : nim gS (av_read k v n).
Proof.
  intros d Hd. destruct v as [v|v]; cbn [av_read]; [nicall (nim_sv_read v n d Hd)|nicall (nim_lv_read k v n d Hd)]; destruct b; nidone.
Qed.

(** ** Functions of the device that are programs *)
Definition follows {X} (pr : prog X) (m : dev -> dev * X) : Prop :=
  asks_ok pr /\ forall d e, quiet d -> near d e -> quiet (fst (on_device pr d)) /\ near (fst (on_device pr d)) (fst (m e)) /\ snd (on_device pr d) = snd (m e).
Definition isp {X} (m : dev -> dev * X) : Type := { pr : prog X | follows pr m }.

Lemma near_refl d : near d d.
Proof. repeat split. Qed.
Fixpoint pr_bind {X Y} (pr : prog X) (f : X -> prog Y) : prog Y :=
  match pr with
  | Return x => f x
  | Access p n exact next => Access p n exact (fun r => pr_bind (next r) f)
  end.
Lemma pr_bind_ok {X Y} (pr : prog X) (f : X -> prog Y) : asks_ok pr -> (forall x, asks_ok (f x)) -> asks_ok (pr_bind pr f).
Proof. intros H1 H2. induction pr as [x|p n ex next IH]; cbn [pr_bind asks_ok] in *; [apply H2|]. destruct H1 as (A & B & C). split; [exact A|]. split; [exact B|]. intros r. apply IH, C. Qed.
Lemma pr_bind_run {X Y} (pr : prog X) (f : X -> prog Y) : forall d, on_device (pr_bind pr f) d = on_device (f (snd (on_device pr d))) (fst (on_device pr d)).
Proof. induction pr as [x|p n ex next IH]; intros d; cbn [pr_bind on_device]; [reflexivity|]. destruct (device_access p n ex d) as [d1 r]. apply IH. Qed.

Lemma isp_pure {X} (x : X) : isp (fun d => (d, x)).
Proof. exists (Return x). split; [exact I|]. intros d e Hd Hn. cbn. auto. Qed.
Lemma isp_bind {X Y} (m : dev -> dev * X) (f : X -> dev -> dev * Y) : isp m -> (forall x, isp (f x)) -> isp (fun d => match m d with (d1, x) => f x d1 end).
Proof.
  intros [pr (Ho & Hp)] Hf. exists (pr_bind pr (fun x => proj1_sig (Hf x))). split; [apply pr_bind_ok; [exact Ho|intros x; exact (proj1 (proj2_sig (Hf x)))]|].
  intros d e Hd Hn. rewrite pr_bind_run. destruct (Hp d e Hd Hn) as (A & B & C). destruct (m e) as [e1 x]. cbn [fst snd] in B, C. rewrite C.
  exact (proj2 (proj2_sig (Hf x)) _ _ A B).
Qed.
Lemma isp_ext {X} (m m' : dev -> dev * X) : (forall d, quiet d -> m d = m' d) -> isp m -> isp m'.
Proof.
  intros E [pr (Ho & Hp)]. exists pr. split; [exact Ho|]. intros d e Hd Hn. rewrite <- (E e (near_quiet _ _ Hn Hd)). exact (Hp d e Hd Hn).
Qed.

(** One access. *)
Definition found (p n : Z) (img : list Z) : list Z := ztake n (from_pos p img).
Definition answer_of (p n : Z) (exact : bool) (img : list Z) : res (list Z) :=
  if exact then if n <=? 0 then Ok [] else if zlen (found p n img) <? n then Err (EIo UnexpectedEof) else Ok (found p n img) else Ok (found p n img).
Lemma zlen_found p n img : zlen (found p n img) <= Z.max 0 n.
Proof. unfold found. rewrite zlen_ztake. lia. Qed.
Lemma quiet_access p n exact d : quiet d -> near (fst (dev_seek 0 d)) (fst (device_access p n exact d)) /\
  snd (device_access p n exact d) = match snd (dev_seek 0 d) with Err e => Err e | _ => answer_of p n exact (d_img d) end.
Proof.
  intros (H1 & H2 & H3). unfold device_access, mbind.
  assert (Hr : forall d1, d_reads d1 = [] -> near d1 (fst ((if exact then dev_read_exact n else dev_read n) d1)) /\ snd ((if exact then dev_read_exact n else dev_read n) d1) = answer_of (d_pos d1) n exact (d_img d1)).
  { intros d1 E. unfold answer_of.
    assert (E1 : forall d1 n, d_reads d1 = [] -> dev_read n d1 = (mkDev (d_img d1) (d_pos d1 + zlen (found (d_pos d1) n (d_img d1))) [] (d_seeks d1), Ok (found (d_pos d1) n (d_img d1)))).
    { intros dd nn F. unfold dev_read. rewrite F. reflexivity. }
    destruct exact.
    - unfold dev_read_exact. rewrite E. cbn [length plus dev_read_exact_loop]. destruct (n <=? 0) eqn:En; [split; [apply near_refl|reflexivity]|].
      rewrite (E1 d1 n E). pose proof (zlen_found (d_pos d1) n (d_img d1)) as Hz. destruct (found (d_pos d1) n (d_img d1)) as [|x t] eqn:Ef.
      + cbn [fst snd]. change (zlen (@nil Z)) with 0. replace (0 <? n) with true by lia. split; [repeat split|reflexivity]. cbn. now rewrite E.
      + destruct (Z.ltb_spec (zlen (x :: t)) n) as [Hlt|Hge].
        * replace (n - zlen (x :: t) <=? 0) with false by lia. rewrite E1 by reflexivity. cbn [d_reads d_img d_pos d_seeks].
          assert (E0 : found (d_pos d1 + zlen (x :: t)) (n - zlen (x :: t)) (d_img d1) = []).
          { rewrite <- Ef in *. clear E1. unfold found in Hlt |- *. unfold from_pos in *. destruct (d_pos d1 <? 0) eqn:Ep; [exfalso; unfold found, from_pos in Ef; rewrite Ep in Ef; discriminate Ef|].
            rewrite zlen_ztake, zlen_zdrop in *. pose proof (zlen_nonneg (d_img d1)).
            match goal with |- context [?a <? 0] => replace (a <? 0) with false by lia end. rewrite zdrop_all by lia. reflexivity. }
          rewrite E0. cbn [fst snd]. split; [repeat split|reflexivity]. cbn. now rewrite E.
        * replace (n - zlen (x :: t) <=? 0) with true by lia. cbn [fst snd app]. split; [repeat split|reflexivity]. cbn. now rewrite E.
    - rewrite (E1 d1 n E). cbn [fst snd]. split; [repeat split|reflexivity]. cbn. now rewrite E. }
  unfold dev_seek. destruct (d_seeks d) as [|[k|] t] eqn:Es; cbn [fst snd].
  - destruct (Hr (mkDev (d_img d) p (d_reads d) []) H1) as (A & B). split; [exact A|exact B].
  - split; [repeat split|reflexivity].
  - destruct (Hr (mkDev (d_img d) p (d_reads d) t) H1) as (A & B). split; [exact A|exact B].
Qed.

Lemma clamp p n exact img : zlen img < I64_MAX ->
  answer_of (if (0 <=? p) && (p <=? U64_MAX) then p else U64_MAX) (Z.max 0 (Z.min n I64_MAX)) exact img = answer_of p n exact img.
Proof.
  intros H. pose proof (zlen_nonneg img) as H0.
  assert (E : forall q, found q (Z.max 0 (Z.min n I64_MAX)) img = found q n img).
  { intros q. unfold found. assert (L : zlen (from_pos q img) < I64_MAX) by (unfold from_pos; destruct (q <? 0); [unfold I64_MAX; reflexivity|rewrite zlen_zdrop; lia]).
    destruct (Z.le_gt_cases n 0); [rewrite !ztake_0 by lia; reflexivity|]. destruct (Z.le_gt_cases n I64_MAX); [f_equal; lia|]. rewrite !ztake_all by lia. reflexivity. }
  assert (E2 : found (if (0 <=? p) && (p <=? U64_MAX) then p else U64_MAX) n img = found p n img).
  { destruct (0 <=? p) eqn:A; cbn [andb].
    - destruct (p <=? U64_MAX) eqn:B; [reflexivity|]. unfold found, from_pos. replace (U64_MAX <? 0) with false by reflexivity. replace (p <? 0) with false by lia.
      unfold I64_MAX, U64_MAX in *. rewrite !zdrop_all by lia. reflexivity.
    - unfold found, from_pos. replace (U64_MAX <? 0) with false by reflexivity. replace (p <? 0) with true by lia. unfold I64_MAX, U64_MAX in *. rewrite zdrop_all by lia. reflexivity. }
  unfold answer_of. rewrite E, E2. destruct exact; [|reflexivity].
  assert (L : zlen (found p n img) < I64_MAX).
  { unfold found. rewrite zlen_ztake. unfold from_pos. destruct (p <? 0); [change (zlen (@nil Z)) with 0; unfold I64_MAX; lia|]. rewrite zlen_zdrop. unfold I64_MAX in *. lia. }
  destruct (n <=? 0) eqn:A; [replace (Z.max 0 (Z.min n I64_MAX) <=? 0) with true by (unfold I64_MAX; lia); reflexivity|].
  replace (Z.max 0 (Z.min n I64_MAX) <=? 0) with false by (unfold I64_MAX; lia).
  destruct (Z.le_gt_cases n I64_MAX); [replace (Z.max 0 (Z.min n I64_MAX)) with n by lia; reflexivity|].
  replace (zlen (found p n img) <? n) with true by lia. replace (Z.max 0 (Z.min n I64_MAX)) with I64_MAX by (unfold I64_MAX in *; lia).
  replace (zlen (found p n img) <? I64_MAX) with true by lia. reflexivity.
Qed.
Lemma isp_access p n exact : isp (device_access p n exact).
Proof.
  exists (Access (if (0 <=? p) && (p <=? U64_MAX) then p else U64_MAX) (Z.max 0 (Z.min n I64_MAX)) exact (fun r => Return r)). split.
  { cbn [asks_ok]. split; [|split; [unfold I64_MAX; lia|exact (fun _ => I)]].
    destruct (0 <=? p) eqn:A; cbn [andb]; [destruct (p <=? U64_MAX) eqn:B|]; unfold U64_MAX in *; lia. }
  intros d e Hd Hn. pose proof (near_quiet _ _ Hn Hd) as He. cbn [on_device]. set (p' := if _ && _ then p else _). set (n' := Z.max _ _).
  destruct (quiet_access p' n' exact d Hd) as (A & B). destruct (quiet_access p n exact e He) as (A' & B').
  destruct (device_access p' n' exact d) as [d1 r]. destruct (device_access p n exact e) as [e1 r']. cbn [fst snd] in *.
  assert (Q : near (fst (dev_seek 0 d)) (fst (dev_seek 0 e)) /\ snd (dev_seek 0 d) = snd (dev_seek 0 e)).
  { destruct Hn as (N1 & N2 & N3). unfold dev_seek. rewrite N3. destruct (d_seeks d) as [|[k|] t]; cbn [fst snd]; (split; [split; [exact N1|split; [exact N2|reflexivity]]|reflexivity]). }
  destruct Q as (Q1 & Q2). pose proof (proj1 (quiet_seek 0 d Hd)) as Q3. split; [exact (near_quiet _ _ A Q3)|]. split.
  - destruct A as (? & ? & ?), A' as (? & ? & ?), Q1 as (? & ? & ?). unfold near. splits; congruence.
  - rewrite B, B', Q2. destruct Hn as (N1 & _). rewrite N1. destruct (snd (dev_seek 0 e)); try reflexivity; apply clamp, Hd.
Qed.
