(** * Proofs for C65: indexes. *)
From Coq Require Import Lia.
From Verif Require Import Base Dev Types Record DataRuns Stream NonResident Resident BootSector Attribute File Structured AttrList Upcase Guid Volume Index Spec SpecMisc SpecIndex SpecTotal SpecPanic
  BaseProofs MiscProofs ValueProofs AttrListProofs UpcaseProofs DataRunsProofs DevProofs StreamProofs NonResidentProofs RecordProofs AttributeProofs FileProofs StructuredProofs NodeProofs IndexRecordProofs IndexProofs IndexTotalProofs DirTotalProofs
  ListTotalProofs PanicProofs.

Lemma fixup_bytes data p : bytes_ok data -> bytes_ok (rec_data (fst (fixup (mkRecord data p)))).
Proof.
  intros Hd. unfold fixup. destruct (let? usn := _ in _) as [[[usn c] st]|e| |]; auto.
  cbn [rec_data rec_position]. pose proof (fixup_loop_calm (Z.to_nat c) usn p st (NTFS_BLOCK_SIZE - 2) data Hd) as H. destruct (fixup_loop _ _ _ _ _ _) as [data' r]. exact (proj2 H).
Qed.
Definition gnode (g : ranges) : Prop := bytes_ok (rg_data g) /\ 0 <= rg_start g /\ rg_end g <= zlen (rg_data g) /\ tame_node (rg_data g) (rg_start g) (rg_end g).
Lemma gnode_step g : gnode g -> exists g' x, ranges_next g = (g', x) /\ rg_data g' = rg_data g /\ gnode g' /\
  (x = None \/ (exists y, x = Some (Err y)) \/
   exists o p, x = Some (Ok (mkER o (o + entry_len (rg_data g) o) p)) /\ 0 <= o /\ entry_fits (rg_data g) o /\ 13 <= entry_len (rg_data g) o).
Proof.
  intros Hg. pose proof Hg as (Hb & Ho & Hs & Ht). destruct g as [data o stop p]. cbn [rg_data rg_start rg_end] in *.
  destruct (ranges_next_spec data Hb stop Hs o p Ho) as (K1 & K2 & K3 & K4).
  destruct (Z_lt_le_dec o stop) as [L|L]; [|rewrite K1 by auto; do 2 eexists; split; [reflexivity|]; auto].
  assert (Hd : entry_fits data o \/ ~ entry_fits data o) by (unfold entry_fits; lia).
  destruct Hd as [Hf|Hf]; [|destruct (K2 L Hf) as (x & E); rewrite E; do 2 eexists; split; [reflexivity|]; splits; eauto].
  destruct (Z_lt_le_dec (entry_len data o) 13) as [Hl|Hl]; [exfalso; exact (Ht _ _ (nw_short data stop o L Hf Hl) eq_refl)|].
  rewrite K4 by auto. do 2 eexists. split; [reflexivity|]. destruct (entry_is_last data o) eqn:El; (split; [reflexivity|]); (split; [|right; right; exists o, p; splits; auto]).
  - pose proof (zlen_nonneg data). split; auto. split; [cbn; lia|]. split; auto. cbn. intros offs e W. inversion W; subst; try lia. discriminate.
  - split; auto. split; [cbn; lia|]. split; auto. cbn. intros offs e W. apply (Ht (o :: offs) e). now apply nw_entry.
Qed.

(** Entries that an iterator hands out. *)
Definition gentry (e : ientry) : Prop := exists data o p, bytes_ok data /\ 0 <= o /\ entry_fits data o /\ 16 <= entry_len data o /\ e = mkIE (entry_bytes data o) p.
Lemma gentry_of e : (bytes_ok (ie_slice e) /\ 16 <= zlen (ie_slice e)) -> np (fun _ => True) (ie_length e) /\ np (fun _ => True) (ie_flags e) /\ np (fun _ => True) (ie_key_length e) /\ np bytes_ok (ie_file_reference e) /\
  (forall K (kp : list Z -> position -> res K) (Q : K -> Prop), (forall s p, bytes_ok s -> np Q (kp s p)) -> match ie_key kp e with None => True | Some x => np Q x end).
Proof.
  intros (H1 & H2). unfold ie_length, ie_flags, ie_key_length, ie_file_reference, rd_u16, rd_u8, idx_range. rewrite !rd_in by lia. rewrite get_range_in by lia. splits; try exact Logic.I.
  - now apply bytes_ok_slice.
  - intros K kp Q Hk. unfold ie_key, ie_key_length, ie_is_last, ie_flags, rd_u16, rd_u8. rewrite !rd_in by lia. cbn [rbind]. destruct (_ =? 0); [exact Logic.I|]. destruct (Z.testbit _ _); [exact Logic.I|].
    destruct (get_range (ie_slice e) 16 _) as [s|] eqn:E; [|exact Logic.I]. apply Hk. exact (get_range_bytes _ _ _ _ H1 E).
Qed.
Lemma gentry_slice e : gentry e -> bytes_ok (ie_slice e) /\ 16 <= zlen (ie_slice e).
Proof. intros (data & o & p & Hb & Ho & Hf & Hl & ->). cbn [ie_slice]. split; [unfold entry_bytes; now apply bytes_ok_slice|]. rewrite entry_bytes_len; auto. Qed.
Lemma fn_from_slice_np s p : bytes_ok s -> np (fun fn => bytes_ok (fn_name fn)) (fn_from_slice s p).
Proof.
  intros Hs. unfold fn_from_slice, from_slice.
  pose proof (fn_new_np (d_img no_dev) res_calm cursor_exact (cursor_np _) p (zlen s) (zlen_nonneg _) (res_new s p) no_dev) as H.
  destruct (fn_new cursor_exact p (zlen s) (res_new s p) no_dev) as [d1 [s1 y]]. destruct H as (_ & _ & H); auto. { split; cbn; auto. lia. }
  cbn [snd]. exact (np_weak _ _ _ H (fun fn Hfn => proj2 Hfn)).
Qed.

    Lemma entry_np data o p : bytes_ok data -> 0 <= o -> entry_fits data o -> 13 <= entry_len data o -> np gentry (er_to_entry (mkER o (o + entry_len data o) p) data).
    Proof.
      intros H1 H2 H3 H4. destruct (range_entry data o p H1 H2 H3 H4) as [(H16 & E)|(_ & x & E)]; rewrite E; cbn; auto. exists data, o, p. splits; auto.
    Qed.
Lemma irec_signed bs p r : 4 <= zlen bs -> irec_of_bytes bs p = Ok r -> slice bs 0 4 = [73; 78; 68; 88].
Proof.
  intros Hl. unfold irec_of_bytes, irec_validate_signature, rec_signature, idx_range. cbn [rec_data rec_position]. rewrite get_range_in by lia. cbn [rbind].
  destruct (list_eqb _ _) eqn:E; cbn [rbind]; [|discriminate]. intros _. now apply list_eqb_eq.
Qed.
Lemma irec_tame_np bs p : bytes_ok bs -> 36 <= zlen bs <= U16_MAX -> tame_record bs -> returns (irec_of_bytes bs p).
Proof.
  intros Hb Hl T. destruct (list_eqb (slice bs 0 4) [73; 78; 68; 88]) eqn:E.
  - apply list_eqb_eq in E. destruct (T E) as (T1 & T2 & _). now apply irec_of_bytes_returns.
  - unfold irec_of_bytes, irec_validate_signature, rec_signature, idx_range. cbn [rec_data rec_position]. rewrite get_range_in by lia. cbn [rbind]. rewrite E. exact Logic.I.
Qed.
Section Index.
  Context (nt : ntfs) (img : list Z) (U : usable nt img).
  Notation cs := (cluster_size nt).
  Let Hb : bytes_ok img := proj1 (us_tame _ _ U).

  Lemma index_root_np a : gattr cs a -> np (fun ir => bytes_ok (ir_slice ir) /\ 32 <= zlen (ir_slice ir) /\ np (fun g => bytes_ok (rg_data g) /\ rg_start g = 0 /\ rg_end g = zlen (rg_data g)) (ir_entry_ranges ir)) (attr_index_root a).
  Proof.
    intros H. destruct a as [f o e]. pose proof (gattr_basic cs _ H) as (_ & _ & _ & _ & _ & b & Er & Hres). pose proof (gattr_22 cs _ H) as H22.
    destruct H as [H1 H2 H3 (_ & _ & H6)]. cbn [at_file at_offset] in *.
    destruct (attr_index_root_returns f o e H1 H2 H3 H22) as (K1 & K2). destruct (attr_index_root _) as [ir|x| |]; cbn in *; try tauto.
    destruct (K2 ir eq_refl) as (Ht & Hv & Hnew). destruct (resident_len_bound f o _ H1 H2 H3 Hv) as (_ & Hrb).
    destruct (proj2 (ir_new_returns (ir_slice ir) (ir_position ir) Hrb) _ Hnew) as (_ & Hz & _). splits; auto.
    destruct (proj1 (ir_entries_panic _ _ _ Hrb Hnew) (H6 Ht _ Hv Hz)) as (_ & Hrg). apply np_ok; [destruct (ir_entry_ranges ir); cbn in Hrg; try discriminate; contradiction|].
    intros g Eg. unfold ir_entry_ranges in Eg. destruct (ir_range ir) as [((x & y) & p)|?| |]; cbn [rbind] in Eg; try discriminate. unfold idx_range in Eg. destruct (get_range _ _ _) eqn:E2; cbn [rbind] in Eg; try discriminate.
    assert (g = mkRanges l 0 (zlen l) p) by congruence. subst g. cbn. splits; auto. exact (get_range_bytes _ _ _ _ Hrb E2).
  Qed.
  Definition gindex0 (ix : index) : Prop := bytes_ok (rg_data (ix_root ix)) /\ rg_start (ix_root ix) = 0 /\ rg_end (ix_root ix) = zlen (rg_data (ix_root ix)) /\ forall i, ix_alloc ix = Some i -> gitem nt i.
  Lemma index_new_np ri ai : gitem nt ri -> (forall i, ai = Some i -> gitem nt i) -> np gindex0 (index_new ri ai).
  Proof.
    intros Hr Ha. unfold index_new. apply (np_bind _ _ _ _ Hr). intros ra _ Hra. apply (np_bind _ _ _ _ (gattr_ensure cs ra _ (proj1 Hra))). intros _ _ _.
    apply (np_bind _ _ _ _ (index_root_np ra (proj1 Hra))). intros ir _ (I1 & I2 & I3). apply (np_bind (fun _ => True)).
    - destruct ai as [i|].
      + apply (np_bind _ _ _ _ (Ha i eq_refl)). intros a _ Hga. apply (gattr_ensure cs a _ (proj1 Hga)).
      + unfold ir_is_large, rd_u8. rewrite rd_in by lia. cbn [rbind]. destruct (Z.testbit _ _); exact Logic.I.
    - intros _ _ _. unfold ir_record_size, rd_u32. rewrite rd_in by lia. cbn [rbind]. apply (np_bind _ _ _ _ I3). intros g _ (G1 & G2 & G3). unfold gindex0. cbn. splits; auto.
  Qed.
  Lemma directory_index_np fuel f : gfile cs f -> npm img gindex0 (directory_index fuel nt f).
  Proof.
    intros Hf. unfold directory_index, f_is_directory, f_flags, rd_u16. rewrite rd_in by (destruct Hf; lia). cbn [rbind].
    apply (npm_try img (fun _ => True)); [exact Logic.I|]. intros dir _ _. destruct (negb dir); [apply npm_lift; exact Logic.I|].
    apply (npm_bind img (gitem nt)); [now apply find_attribute_np|]. intros ri Hri. apply (npm_try img _ _ _ _ Hri). intros ra _ Hra.
    apply (npm_try img _ _ _ _ (index_root_np ra (proj1 Hra))). intros ir _ (I1 & I2 & I3). unfold ir_is_large, rd_u8. rewrite rd_in by lia. cbn [rbind].
    apply (npm_try img (fun _ => True)); [exact Logic.I|]. intros large _ _. apply (npm_bind img (fun ai => forall i, ai = Some i -> gitem nt i)).
    - destruct large; [|apply npm_lift; cbn; discriminate]. apply (npm_bind img (gitem nt)); [now apply find_attribute_np|]. intros i Hi. apply npm_lift. cbn. now intros j [= <-].
    - intros ai Hai. apply npm_lift. now apply index_new_np.
  Qed.

  Section Open.
    Context (ix : index) (G0 : gindex0 ix) (Tx : tame_index nt img ix).
    Lemma root_gnode : gnode (ix_root ix).
    Proof. destruct G0 as (G1 & G2 & G3 & _). destruct Tx as (_ & T2 & _). split; auto. rewrite G2, G3. split; [lia|]. split; [lia|exact T2]. Qed.
    Lemma vcn_offset_np n : np (fun o => I64_MIN <= o <= I64_MAX) (vcn_offset cs n).
    Proof. unfold vcn_offset. destruct (_ && _) eqn:E; cbn; auto. lia. Qed.
    Lemma subnode_np k vcn : npm img gnode (index_subnode k nt ix vcn).
    Proof.
      destruct G0 as (_ & _ & _ & G4). destruct Tx as (T1 & _ & T3). unfold index_subnode. destruct (ix_alloc ix) as [i|] eqn:Ei; [|apply npm_lift; exact Logic.I].
      apply (npm_try img (fun j => j = i)); [reflexivity|]. intros j _ ->. apply (npm_try img (gany nt)); [exact (G4 i eq_refl)|]. intros a Ea Hga.
      apply (npm_try img _ _ _ _ (gattr_ensure cs a _ (proj1 Hga))). intros _ _ _.
      apply (npm_bind img (fun v => gav nt v /\ exists d1 d2, d_img d1 = img /\ attr_value nt a d1 = (d2, Ok v))).
      { intros d Hd. destruct (attr_value_np nt img U a Hga d Hd) as (V1 & V2). split; auto. apply np_ok; [exact (np_not _ _ V2)|]. intros v Ev. rewrite Ev in V2. split; auto.
        exists d, (fst (attr_value nt a d)). split; auto. rewrite <- Ev. now destruct (attr_value nt a d). }
      intros v (Hv & d1 & d2 & Hd1 & Ev). apply (npm_try img (fun w => w = v)). { destruct v as [[r|r]|l]; cbn; auto. }
      intros w _ ->. apply (npm_bind img (fun r => exists bs p, bytes_ok bs /\ zlen bs = ix_record_size ix /\ tame_record bs /\ irec_of_bytes bs p = Ok r)).
      - unfold record_from_vcn. apply (npm_try img _ _ _ _ (vcn_offset_np vcn)). intros off Eoff Hoff d Hd.
        assert (off = vcn * cs) by (clear - Eoff; unfold vcn_offset in Eoff; destruct (_ && _); congruence). subst off.
        pose proof (av_seek_np nt img U k v (SCurrent (vcn * cs)) d Hv Hd Hoff) as S. destruct (av_seek k v (SCurrent (vcn * cs)) d) as [d3 [w y]] eqn:Es. destruct S as (S1 & S2 & S3).
        destruct y as [q|e| |]; cbn in S3; try (split; auto; fail). destruct (_ <=? _); [split; [auto|exact Logic.I]|].
        unfold mbind, irec_new, mlift. pose proof (read_exact_np img (gav nt) (av_read k) (av_nreads nt img U k) (ix_record_size ix) ltac:(lia) w d3 S2 S1) as R.
        destruct (rs_read_exact (av_read k) w (ix_record_size ix) d3) as [d4 [w' z]] eqn:Er. destruct R as (R1 & R2 & R3). destruct z as [bs|e| |]; cbn in R3; try (split; auto; fail).
        destruct R3 as (R3 & R4). pose proof (T3 i a d1 d2 v eq_refl Ea Hd1 Ev k vcn d d3 w q Hd Es d4 w' bs Er) as Tr.
        pose proof (irec_tame_np bs (av_data_position w) R3 ltac:(unfold U16_MAX; lia) Tr) as Rt. destruct (irec_of_bytes bs (av_data_position w)) as [r|e| |] eqn:Eb; cbn in Rt; try (split; auto; fail); try contradiction.
        assert (Hlr : zlen (rec_data r) = zlen bs). { unfold irec_of_bytes in Eb. destruct (irec_validate_signature _); cbn [rbind] in Eb; try discriminate. destruct (fixup_spec bs (av_data_position w) R3 ltac:(unfold U16_MAX; lia)) as (data' & out & Ef & Hz & _).
          rewrite Ef in Eb. destruct out; try discriminate. destruct (irec_validate_sizes _); cbn [rbind] in Eb; try discriminate. injection Eb as <-. exact Hz. }
        unfold irec_vcn, rd_u64. rewrite rd_in by lia. cbn [rbind]. destruct (_ =? vcn); (split; [exact R1|]); [|exact Logic.I]. exists bs, (av_data_position w). splits; auto.
      - intros r (bs & p & B1 & B2 & B3 & B4). apply npm_lift. destruct (B3 (irec_signed bs p r ltac:(lia) B4)) as (B5 & B6 & B7). specialize (B7 p r B4).
        assert (Hlr : bytes_ok (rec_data r) /\ zlen (rec_data r) = zlen bs /\ 24 + field 4 (rec_data r) 28 <= zlen (rec_data r)).
        { unfold irec_of_bytes in B4. destruct (irec_validate_signature _); cbn [rbind] in B4; try discriminate. destruct (fixup_spec bs p B1 ltac:(unfold U16_MAX; lia)) as (data' & out & Ef & Hz & _).
          pose proof (fixup_bytes bs p B1) as Hfb. rewrite Ef in B4, Hfb. cbn [fst rec_data] in Hfb. destruct out; try discriminate. destruct (irec_validate_sizes _) as [[]|?| |] eqn:Evs; cbn [rbind] in B4; try discriminate. injection B4 as <-. cbn [rec_data] in *.
          destruct (irec_sizes_spec data' p ltac:(unfold U16_MAX; lia)) as (Hs & _). apply Hs in Evs. splits; auto. lia. }
        destruct Hlr as (L1 & L2 & L3). unfold irec_entry_ranges, irec_range, irec_entries_offset, irec_data_size, rd_u32. rewrite !rd_in by lia. cbn [rbind]. pose proof (field4_bound (rec_data r) 24 L1).
        unfold np, gnode. cbn [rg_data rg_start rg_end]. splits; auto. lia.
    Qed.

    Definition gfollow (o : option erange) (h : ranges) : Prop := match o with None => True | Some r => 0 <= er_start r /\ er_end r = er_start r + entry_len (rg_data h) (er_start r) /\ entry_fits (rg_data h) (er_start r) /\ 13 <= entry_len (rg_data h) (er_start r) /\ entry_is_last (rg_data h) (er_start r) = false end.
    Inductive gstack : list ranges -> list (option erange) -> Prop :=
    | gs_nil : gstack [] []
    | gs_one g : gnode g -> gstack [g] []
    | gs_push g h rest o fs : gnode g -> gstack (h :: rest) fs -> gfollow o h -> gstack (g :: h :: rest) (o :: fs).
    Lemma gstack_top g below fs : gstack (g :: below) fs -> gnode g /\ forall g', rg_data g' = rg_data g -> gnode g' -> gstack (g' :: below) fs.
    Proof. intros H. inversion H; subst; split; auto; intros g' E Hg'; constructor; auto. Qed.
    (** Entries that the iteration yields are not the last of their node. *)
    Definition gyield (e : ientry) : Prop := gentry e /\ ie_is_last e = Ok false.
    Lemma entry_yield_np data o p : bytes_ok data -> 0 <= o -> entry_fits data o -> 13 <= entry_len data o -> entry_is_last data o = false -> np gyield (er_to_entry (mkER o (o + entry_len data o) p) data).
    Proof.
      intros Hdb Ho Hf Hl Hn. pose proof (entry_np data o p Hdb Ho Hf Hl) as H. destruct (range_entry data o p Hdb Ho Hf Hl) as [(H16 & Ee)|(_ & y & Ee)]; rewrite Ee in *; [|exact Logic.I].
      split; [exact H|]. rewrite (entry_last_ok data Hdb o p Ho Hf H16). now rewrite Hn.
    Qed.
    Lemma entries_loop_np (sub : Z -> M ranges) : (forall vcn, npm img gnode (sub vcn)) -> forall fuel st d, gstack (es_iters st) (es_following st) -> d_img d = img ->
      let '(d', (st', x)) := entries_loop sub fuel st d in d_img d' = img /\ gstack (es_iters st') (es_following st') /\ match x with None => True | Some r => np gyield r end.
    Proof.
      intros Hsub. induction fuel as [|k IH]; intros [its fs] d Hst Hd; cbn [entries_loop es_iters es_following] in *; [splits; auto; exact Logic.I|].
      destruct its as [|g below]; [splits; auto|]. destruct (gstack_top g below fs Hst) as (Hg & Hrep).
      destruct (gnode_step g Hg) as (g' & x & En & Ed & Hg' & Hx). rewrite En. specialize (Hrep g' Ed Hg'). destruct Hx as [->|[(y & ->)|(o & p & -> & Ho & Hf & Hl)]].
      - inversion Hst; subst; [splits; auto; constructor|]. destruct o as [r|]; [|apply IH; auto]. unfold entries_yield. cbn [es_iters].
        match goal with F : gfollow (Some r) h |- _ => destruct F as (F1 & F2 & F3 & F4 & F5) end. destruct r as [s e p]. cbn [er_start er_end] in *. subst e. splits; auto. apply entry_yield_np; auto.
        match goal with K : gstack (h :: rest) _ |- _ => destruct (gstack_top _ _ _ K) as ((Hbh & _) & _) end. exact Hbh.
      - splits; auto. exact Logic.I.
      - assert (Hbg : bytes_ok (rg_data g)) by apply Hg. rewrite Ed. pose proof (entry_np (rg_data g) o p Hbg Ho Hf Hl) as Hent.
        destruct (range_entry (rg_data g) o p Hbg Ho Hf Hl) as [(H16 & Ee)|(_ & y & Ee)]; rewrite Ee in *; cbn [rbind]; [|splits; auto].
        rewrite (entry_last_ok (rg_data g) Hbg o p Ho Hf H16). cbn [rbind].
        destruct (entry_subnode_cases (rg_data g) o p Hbg Ho Hf H16) as [E|[(y & E)|(vcn & E & _)]]; rewrite E.
        + destruct (entry_is_last _ _) eqn:Elast; [apply IH; auto|]. unfold entries_yield. cbn [es_iters]. rewrite Ed. splits; auto. apply entry_yield_np; auto.
        + splits; auto. exact Logic.I.
        + destruct (Hsub vcn d Hd) as (S1 & S2). destruct (sub vcn d) as [d1 y]. cbn [fst snd] in S1, S2. destruct y as [sg|e| |]; cbn in S2; try (splits; auto; fail).
          apply IH; auto. cbn [es_iters es_following]. constructor; auto. destruct (entry_is_last _ _) eqn:Elast; cbn; auto. rewrite Ed. splits; auto.
    Qed.
    Lemma entries_next_np k st d : gstack (es_iters st) (es_following st) -> d_img d = img ->
      let '(d', (st', x)) := entries_next k nt ix st d in d_img d' = img /\ gstack (es_iters st') (es_following st') /\ match x with None => True | Some r => np gyield r end.
    Proof. apply entries_loop_np. intros vcn. apply subnode_np. Qed.
    Lemma entries_start_np : gstack (es_iters (index_entries ix)) (es_following (index_entries ix)).
    Proof. constructor. exact root_gnode. Qed.
    Lemma find_loop_np {K} (kp : list Z -> position -> res K) (cmp : K -> res comparison) (Q : K -> Prop) (sub : Z -> M ranges) :
      (forall s p, bytes_ok s -> np Q (kp s p)) -> (forall key, Q key -> np (fun _ => True) (cmp key)) -> (forall vcn, npm img gnode (sub vcn)) ->
      forall fuel g d, gnode g -> d_img d = img -> let '(d', x) := find_loop kp cmp sub fuel g d in d_img d' = img /\ match x with None => True | Some r => np (fun e => gentry e /\ ie_key kp e <> None) r end.
    Proof.
      intros Hkp Hcmp Hsub. induction fuel as [|k IH]; intros g d Hg Hd; cbn [find_loop]; [split; auto; exact Logic.I|].
      destruct (gnode_step g Hg) as (g' & x & En & Ed & Hg' & Hx). rewrite En. destruct Hx as [->|[(y & ->)|(o & p & -> & Ho & Hf & Hl)]]; [split; auto|split; auto; exact Logic.I|].
      assert (Hbg : bytes_ok (rg_data g)) by apply Hg. rewrite Ed. pose proof (entry_np (rg_data g) o p Hbg Ho Hf Hl) as Hent.
      destruct (range_entry (rg_data g) o p Hbg Ho Hf Hl) as [(H16 & Ee)|(_ & y & Ee)]; rewrite Ee in *; [|split; auto].
      assert (Hkey : np (fun _ => True) (match ie_key kp (mkIE (entry_bytes (rg_data g) o) p) with Some x => let? key := x in cmp key | None => Ok Lt end)).
      { destruct (gentry_of _ (gentry_slice _ Hent)) as (_ & _ & _ & _ & Hk). specialize (Hk K kp Q Hkp). destruct (ie_key kp _) as [x|]; [|exact Logic.I]. apply (np_bind _ _ _ _ Hk). intros key _ Hq. auto. }
      assert (Heq : (match ie_key kp (mkIE (entry_bytes (rg_data g) o) p) with Some x => let? key := x in cmp key | None => Ok Lt end) = Ok Eq -> ie_key kp (mkIE (entry_bytes (rg_data g) o) p) <> None).
      { destruct (ie_key kp _); [discriminate|intros [=]]. }
      destruct (match ie_key kp _ with Some _ => _ | None => _ end) as [[]|y| |]; cbn in Hkey; try (split; auto; fail); try (split; auto; exact Logic.I); try contradiction.
      - split; auto. cbn. auto.
      - destruct (entry_subnode_cases (rg_data g) o p Hbg Ho Hf H16) as [E|[(y & E)|(vcn & E & _)]]; rewrite E; [split; auto|split; auto; exact Logic.I|].
        destruct (Hsub vcn d Hd) as (S1 & S2). destruct (sub vcn d) as [d1 y]. cbn [fst snd] in S1, S2. destruct y as [sg|e| |]; cbn in S2; try (split; auto; fail). apply IH; auto.
      - apply IH; auto.
    Qed.
    Lemma file_name_find_np k name d : Forall unit_ok name -> (exists t, upcase_table nt = Some t /\ zlen t = 65536) -> d_img d = img ->
      let '(d', x) := file_name_find k nt ix name d in d_img d' = img /\ match x with None => True | Some r => np (fun e => gentry e /\ ie_key fn_from_slice e <> None) r end.
    Proof.
      intros Hn (t & Ht & Hl) Hd. unfold file_name_find, index_find. apply (find_loop_np fn_from_slice _ (fun fn => bytes_ok (fn_name fn))); auto using root_gnode.
      - intros s p Hs. now apply fn_from_slice_np.
      - intros fn Hfn. destruct (upcase_cmp_spec nt t name (units (fn_name fn)) Ht Hl Hn (unit_ok_units _ Hfn)) as (c & -> & _). exact Logic.I.
      - intros vcn. apply subnode_np.
    Qed.
  End Open.

  Lemma entry_calm_of e : gentry e -> entry_calm nt img e.
  Proof.
    intros He. destruct (gentry_of e (gentry_slice e He)) as (E1 & E2 & E3 & E4 & E5). unfold entry_calm. splits; try (eapply np_not; eassumption).
    - specialize (E5 _ fn_from_slice _ fn_from_slice_np). destruct (ie_key fn_from_slice e) as [x|]; [|discriminate]. intros K. apply (np_not _ _ E5). congruence.
    - destruct He as (data & o & p & H1 & H2 & H3 & H4 & ->). destruct (entry_subnode_cases data o p H1 H2 H3 H4) as [->|[(y & ->)|(vcn & -> & _)]]; discriminate.
    - intros d Hd. assert (K : npm img (fun _ => True) (ie_to_file nt e)).
      { unfold ie_to_file. apply (npm_try img _ _ _ _ E4). intros r _ Hr. eapply npm_weak; [apply ntfs_file_np; auto; now apply fr_number_nonneg|]. auto. }
      exact (np_not _ _ (proj2 (K d Hd))).
  Qed.
End Index.
