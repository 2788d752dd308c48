(** * C78: the number of device accesses of a lookup in a directory. *)
From Coq Require Import Lia.
From Verif Require Import Base Dev Types Record DataRuns DataRunsProofs Stream NonResident Resident Attribute File Structured AttrList Upcase Index
  Spec SpecValues SpecIndex SpecCost BaseProofs DevProofs StreamProofs ReaderProofs ResidentProofs NonResidentProofs AttributeProofs FileProofs StructuredProofs
  ValueProofs AttrListProofs NodeProofs IndexRecordProofs IndexProofs DirectoryProofs IndexTotalProofs DirTotalProofs IndexClaims CostProofs IndexExamples.

(** Reading exactly [n] bytes. *)
Lemma cost_exact cs img l enc p size fuel k v n acc d : valid_extents cs img l -> encodes 0 l enc -> 0 <= size <= U64_MAX -> size <= extents_size cs l -> good img true d ->
  nr_inv cs enc p size (map (run_of cs) l) v -> 
  let pos := nr_stream_position v in paid (touched cs l pos (pos + n)) d (fst (rs_read_exact_loop (av_read fuel) k (AVSimple (SVNr v)) n acc d)).
Proof.
  intros Hv He Hs Hse Hg HI. pose proof (nr_extents_refines cs img l enc p size Hv He Hs) as R. cbv zeta.
  assert (Hz : zlen (file_content cs img l size) = size) by (apply content_size; auto; lia).
  assert (H0 : forall k, paid k d d) by (intros k0; eapply paid_le; [|apply paid_0]; lia).
  destruct k as [|k]; cbn [rs_read_exact_loop]; destruct (Z.leb_spec n 0) as [Hn|Hn]; try apply H0. cbn [av_read sv_read].
  pose proof (cost_inv cs img l enc p size d v n Hv He (proj1 Hg) HI) as Hc. cbv zeta in Hc. change (ss_pos (nv_ss v)) with (nr_stream_position v) in Hc.
  destruct (rf_read _ _ _ _ _ _ _ R v d n HI Hg ltac:(lia)) as (d1 & v1 & E & I1 & G1 & Hp1). rewrite E in *. cbn [fst] in Hc.
  pose proof (rf_pos _ _ _ _ _ _ _ R v HI) as Hpos.
  set (bs := ztake n (zdrop (nr_stream_position v) (file_content cs img l size))) in *.
  assert (Hbs : zlen bs = n \/ size <= nr_stream_position v + zlen bs) by (unfold bs; rewrite zlen_ztake, zlen_zdrop, Hz; lia).
  clearbody bs. destruct bs as [|b t] eqn:Eb; [exact Hc|]. rewrite <- Eb in *.
  destruct Hbs as [Hbs|Hbs]; [destruct k; cbn [rs_read_exact_loop]; replace (n - zlen bs <=? 0) with true by lia; exact Hc|].
  destruct k as [|k]; cbn [rs_read_exact_loop]; destruct (Z.leb_spec (n - zlen bs) 0) as [Hn1|Hn1]; try exact Hc. cbn [av_read sv_read].
  destruct (rf_read _ _ _ _ _ _ _ R v1 d1 (n - zlen bs) I1 G1 ltac:(lia)) as (d2 & v2 & E2 & _). 
  assert (Hnil : ztake (n - zlen bs) (zdrop (nr_stream_position v1) (file_content cs img l size)) = []).
  { apply zlen_0. rewrite zlen_ztake, zlen_zdrop, Hz. lia. }
  rewrite Hnil in E2.
  assert (Ed : d2 = d1).
  { assert (Hsz : ss_size (nv_ss v1) = size) by (destruct I1 as (rest & I1); apply (inv_size _ _ _ _ _ _ I1)).
    pose proof (cost_behind (nr_fuel v1 d1) v1 (n - zlen bs) [] d1) as Hb. rewrite Hsz in Hb. change (ss_pos (nv_ss v1)) with (nr_stream_position v1) in Hb. specialize (Hb ltac:(lia)).
    unfold nr_read in E2. rewrite E2 in Hb. exact Hb. }
  rewrite E2, Ed. exact Hc.
Qed.

Section Lookup.
  Context (nt : ntfs) (img : list Z) (f : file) (offs : list Z) (clean : bool) (root alloc : list Z).
  Context (Hib : bytes_ok img) (Hb : bytes_ok (f_data f)) (Hl : 24 <= zlen (f_data f))
    (W : attr_walk (f_data f) (field 2 (f_data f) 20) offs clean) (Hno : no_attribute_list (f_data f) offs)
    (Hcs : 1 <= cluster_size nt)
    (D : is_directory (cluster_size nt) img (f_data f) offs root alloc)
    (Hclear : arrays_clear (cluster_size nt) (root_record_size root) alloc).
  Context (c : nat) (Hpieces : record_pieces (cluster_size nt) (f_data f) offs root c).
  Let gd := good img true.
  Let child := index_child (cluster_size nt) root alloc.

  Lemma index_alloc_at fuel d ix : (length offs < fuel)%nat -> directory_index fuel nt f d = (d, Ok ix) -> root_is_large root = true ->
    exists o, ix_alloc ix = Some (mkItem f None o None) /\ first_match (f_data f) offs 160 I30 o.
  Proof.
    intros Hfu Hix El. destruct D as [Hflag (o & Hm & Hr & H22 & Hv) Hrok Hal _].
    destruct (first_match_lookup f offs clean 144 I30 o ltac:(unfold type_known; cbn; tauto) Hb ltac:(lia) W Hm) as (E1 & Ho & Hf & Hty).
    destruct (attr_index_root_spec f o None root Hb Ho Hf H22 Hty Hr Hv Hrok) as (p & Eir & Hrb).
    destruct (ir_entry_ranges_spec root p Hrb Hrok) as (q & Eg).
    assert (Edir : f_is_directory f = Ok true).
    { unfold f_is_directory, f_flags, rd_u16. rewrite rd_in by lia. cbn [rbind]. rewrite flags_bit by auto. now rewrite Hflag. }
    assert (Hta : item_to_attribute (mkItem f None o None) = Ok (mkAttr f o None)).
    { unfold item_to_attribute. cbn [ai_value_file ai_file ai_offset ai_entries]. exact (proj1 (attr_new_spec f o None Ho) Hf). }
    revert Hix. unfold directory_index. unfold mbind at 1, mlift at 1. rewrite Edir. cbn [negb].
    unfold mbind at 1. rewrite (find_attribute_spec nt f TY_IndexRoot (Some DIRECTORY_INDEX_NAME) offs clean Hb ltac:(lia) W Hno fuel d Hfu).
    change TY_IndexRoot with 144. change DIRECTORY_INDEX_NAME with I30. rewrite E1. cbn [rbind at_offset].
    unfold mbind at 1, mlift at 1. rewrite Hta. unfold mbind at 1, mlift at 1. rewrite Eir. unfold mbind at 1, mlift at 1. rewrite (ir_large_spec root p Hrok).
    assert (Htr : attr_ensure_ty (mkAttr f o None) TY_IndexRoot = Ok tt) by (apply type_known_ty; auto; unfold type_known; cbn; tauto).
    rewrite El in *.
    destruct Hal as (o2 & l & Hm2 & Hr2 & H56 & Hrl & Hve & Henc & Hsz & Hac).
    destruct (first_match_lookup f offs clean 160 I30 o2 ltac:(unfold type_known; cbn; tauto) Hb ltac:(lia) W Hm2) as (E2 & Ho2 & Hf2 & Hty2).
    unfold mbind at 1. unfold mbind at 1. rewrite (find_attribute_spec nt f TY_IndexAllocation (Some I30) offs clean Hb ltac:(lia) W Hno fuel d Hfu).
    change TY_IndexAllocation with 160. rewrite E2. cbn [rbind at_offset]. unfold mret at 1. unfold mlift, index_new. rewrite Hta. cbn [rbind]. rewrite Htr. cbn [rbind]. rewrite Eir. cbn [rbind].
    unfold item_to_attribute at 1. cbn [ai_value_file ai_file ai_offset ai_entries]. rewrite (proj1 (attr_new_spec f o2 None Ho2) Hf2). cbn [rbind].
    rewrite (type_known_ty f o2 None TY_IndexAllocation) by (auto; unfold type_known; cbn; tauto). cbn [rbind].
    rewrite (ir_record_size_spec root p Hrok), Eg. cbn [rbind]. intros [= <-]. cbn [ix_alloc]. exists o2. auto.
  Qed.

  (** Reading one index record. *)
  Lemma cost_subnode fuel0 d0 ix fuel vcn d : (length offs < fuel0)%nat -> directory_index fuel0 nt f d0 = (d0, Ok ix) -> dir_ix nt img f root alloc ix -> gd d ->
    paid (if vcn <? 0 then 0 else c) d (fst (index_subnode fuel nt ix vcn d)).
  Proof.
    intros Hfu Hdi Hix Hg. assert (H0 : forall k, paid k d d) by (intros k0; eapply paid_le; [|apply paid_0]; lia).
    pose proof (index_alloc_at fuel0 d0 ix Hfu Hdi) as Hat. destruct Hix as (q & Hroot & Hsize & Hal). unfold index_subnode. unfold mbind at 1, mlift at 1.
    destruct (root_is_large root) eqn:El; [|rewrite Hal; apply H0].
    destruct Hal as (o & l & Eal & Ho & Hf & Hty & Hr & H56 & Hro & Hv & He & Hs & Ha). destruct (Hat eq_refl) as (o' & Eal' & Hm). assert (o' = o) by congruence. subst o'.
    rewrite Eal. unfold mbind at 1, mlift at 1. unfold item_to_attribute. cbn [ai_value_file ai_file ai_offset ai_entries]. rewrite (proj1 (attr_new_spec f o None Ho) Hf).
    unfold mbind at 1, mlift at 1. rewrite (type_known_ty f o None TY_IndexAllocation) by (auto; unfold type_known; cbn; tauto).
    pose proof (field8_bound (f_data f) (o + 48) Hb) as Hsz. set (size := field 8 (f_data f) (o + 48)) in *.
    pose proof (fun vcn => Hpieces o l vcn Hm He) as Hpc.
    set (enc := slice (f_data f) (o + field 2 (f_data f) (o + 32)) (o + attr_len_at (f_data f) o)) in *. set (p := pos_add (f_position f) (o + field 2 (f_data f) (o + 32))).
    destruct (nr_extents_new (cluster_size nt) img l enc p size Hv He) as (n & E & Hi & Hp & _).
    assert (Ev : attr_value nt (mkAttr f o None) d = (d, Ok (AVSimple (SVNr n)))).
    { unfold attr_value. cbn [at_entries]. unfold mbind, mlift, mret. rewrite (attr_value_extents f (cluster_size nt) o None Hb Ho Hf H56 Hr Hro). fold enc p size. rewrite E. reflexivity. }
    unfold mbind at 1. rewrite Ev. unfold mbind at 1, mlift at 1. cbn [ia_of_value]. rewrite Hsize.
    assert (Hbind : forall x : M record, paid (if vcn <? 0 then 0 else c) d (fst (x d)) -> paid (if vcn <? 0 then 0 else c) d (fst (mbind x (fun r => mlift (irec_entry_ranges r)) d))).
    { intros x. unfold mbind. destruct (x d) as [d1 [r|y| |]]; auto. }
    apply Hbind. clear Hbind. unfold record_from_vcn, vcn_offset. set (off := vcn * cluster_size nt). destruct ((I64_MIN <=? off) && (off <=? I64_MAX)) eqn:E0; [|unfold mbind, mlift; apply H0].
    unfold mbind at 1, mlift at 1. pose proof (nr_extents_refines (cluster_size nt) img l enc p size Hv He ltac:(lia)) as R.
    destruct (rf_seek _ _ _ _ _ _ _ R n d (SCurrent off) Hi Hg) as (d1 & v1 & Hg1 & Hi1 & H). { cbn. unfold I64_MIN, I64_MAX in *. lia. }
    pose proof (still_nr_seek n (SCurrent off) d) as Hst. cbn [seek_target] in H. rewrite Hp in H. rewrite Z.add_0_l in H.
    cbn [av_seek sv_seek]. destruct H as [(Hq & Es & Hp1)|(Hq & Es & ->)]; rewrite Es in *; cbn [fst] in Hst; subst d1; [|apply H0].
    destruct (av_len (AVSimple (SVNr v1)) <=? av_stream_position (AVSimple (SVNr v1))); [apply H0|]. assert (Hv0 : 0 <= vcn) by (unfold off in *; nia). replace (vcn <? 0) with false by lia.
    assert (Hr2 : paid c d (fst (irec_new fuel (AVSimple (SVNr v1)) (root_record_size root) d))).
    { unfold irec_new, rs_read_exact. pose proof (cost_exact (cluster_size nt) img l enc p size fuel (Z.to_nat (root_record_size root) + length (d_reads d) + length (d_seeks d) + 1) v1 (root_record_size root) [] d Hv He ltac:(lia) Hs Hg1 Hi1) as Hx.
      cbv zeta in Hx. rewrite Hp1 in Hx. apply (paid_le _ c) in Hx; [|apply Hpc; exact Hv0].
      destruct (rs_read_exact_loop _ _ _ _ _ d) as [d2 [v2 [bs|y| |]]]; exact Hx. }
    unfold mbind at 1. destruct (irec_new fuel (AVSimple (SVNr v1)) (root_record_size root) d) as [d2 [r|y| |]]; cbn [fst] in *; auto.
    unfold mbind, mlift. destruct (irec_vcn r) as [x|y| |]; auto. destruct (x =? vcn); exact Hr2.
  Qed.

  Context (h : nat) (Hlev : levels child (root_entries root) h).

  Lemma cost_find {K} (kp : list Z -> position -> res K) cmp fuel0 d0 ix fuel d : (length offs < fuel0)%nat -> directory_index fuel0 nt f d0 = (d0, Ok ix) -> dir_ix nt img f root alloc ix -> gd d ->
    paid (h * c) d (fst (index_find kp cmp fuel nt ix d)).
  Proof.
    intros Hfu Hdi Hix Hg. destruct Hlev as (level & Hl1 & Hl2).
    assert (Hrb : bytes_ok (root_entries root)) by (apply bytes_ok_slice; eapply root_bytes_ok; eauto).
    assert (Hmain : forall k g r l e d, bytes_ok (rg_data g) -> 0 <= rg_start g -> rg_end g <= zlen (rg_data g) -> node_walk (rg_data g) (rg_end g) (rg_start g) l e ->
      (forall o vcn, In o l -> refers (rg_data g) o vcn -> (level vcn < r)%nat) -> gd d -> paid (r * c) d (fst (find_loop kp cmp (index_subnode fuel nt ix) k g d))).
    { clear d Hg. induction k as [|k IH]; intros g r l e d Hbg Ho Hs Wk Hr Hg; [eapply paid_le; [|apply paid_0]; lia|].
      assert (H0 : forall k, paid k d d) by (intros k0; eapply paid_le; [|apply paid_0]; lia).
      cbn [find_loop]. destruct g as [data o stop p]. cbn [rg_data rg_start rg_end] in *.
      destruct (ranges_next_spec data Hbg stop Hs o p Ho) as (K1 & K2 & K3 & K4).
      assert (Hstep : forall g' l', rg_data g' = data -> 0 <= rg_start g' -> rg_end g' <= zlen data -> (forall x, In x l' -> In x l) -> In o l -> node_walk data (rg_end g') (rg_start g') l' (if entry_is_last data o then NodeDone else e) ->
        entry_fits data o -> 13 <= entry_len data o ->
        forall y, er_to_entry (mkER o (o + entry_len data o) p) data = Ok y -> True ->
        paid (r * c) d (fst (match (match ie_key kp y with Some x => let? key := x in cmp key | None => Ok Lt end) with
              | Ok Eq => (d, Some (Ok y))
              | Ok Gt => find_loop kp cmp (index_subnode fuel nt ix) k g' d
              | Ok Lt => match ie_subnode_vcn y with
                  | None => (d, None)
                  | Some (Ok vcn) => match index_subnode fuel nt ix vcn d with
                      | (d1, Ok sg) => find_loop kp cmp (index_subnode fuel nt ix) k sg d1
                      | (d1, Err x) => (d1, Some (Err x)) | (d1, Panic) => (d1, Some Panic) | (d1, OutOfFuel) => (d1, Some OutOfFuel) end
                  | Some (Err x) => (d, Some (Err x)) | Some Panic => (d, Some Panic) | Some OutOfFuel => (d, Some OutOfFuel) end
              | Err x => (d, Some (Err x)) | Panic => (d, Some Panic) | OutOfFuel => (d, Some OutOfFuel) end))).
      { intros g' l' A1 A2 A3 A4 A5 A6 A7 A8 y Ey _.
        destruct (range_entry data o p Hbg Ho A7 A8) as [(H16 & Ee)|(_ & z & Ee)]; rewrite Ee in Ey; [|discriminate]. injection Ey as <-.
        destruct (match ie_key kp _ with Some _ => _ | None => _ end) as [[]|z| |]; try apply H0.
        - destruct (entry_subnode_cases data o p Hbg Ho A7 H16) as [E|[(z & E)|(vcn & E & Hv)]]; rewrite E; try apply H0.
          pose proof (cost_subnode fuel0 d0 ix fuel vcn d Hfu Hdi Hix Hg) as Hc.
          destruct (dir_sub_total nt img f offs root alloc Hib Hb Hl Hcs D Hclear true ltac:(discriminate) ix vcn d Hix Hg) as (d1 & rs & Es & Hg1 & _ & Hok).
          rewrite (subnode_fuel nt img f root alloc Hb ix fuel vcn d Hix) in *. rewrite Es in *. cbn [fst] in Hc.
          assert (Hone : ((if (vcn <? 0)%Z then 0 else c) <= r * c)%nat).
          { destruct (Z.ltb_spec vcn 0) as [|Hv0]; [lia|]. specialize (Hr o vcn A5 (Hv Hv0)). nia. }
          destruct rs as [sg|z| |]; try (eapply paid_le; [exact Hone|exact Hc]).
          destruct (Hok sg eq_refl) as (Hv0 & data' & q' & Hch & ->). replace (vcn <? 0) with false in * by lia. specialize (Hr o vcn A5 (Hv Hv0)).
          destruct (dir_child_ok nt img f offs root alloc Hib D vcn data' Hch) as (Hb' & Hs'). pose proof (field4_bound data' 24 Hb').
          destruct (node_walk_exists data' (24 + field 4 data' 28) Hb' Hs' (24 + field 4 data' 24) ltac:(lia)) as (l2 & e2 & W2).
          pose proof (IH (mkRanges data' (24 + field 4 data' 24) (24 + field 4 data' 28) q') (level vcn) l2 e2 d1 Hb' ltac:(cbn [rg_start]; lia) Hs' W2 (fun o' vcn' Hi' Hr' => Hl2 vcn data' l2 e2 o' vcn' Hch W2 Hi' Hr') Hg1) as Hn.
          eapply paid_le; [|exact (paid_trans _ _ _ _ _ Hc Hn)]. nia.
        - eapply (IH g' r l'); rewrite ?A1; eauto. }
      inversion Wk; subst.
      - rewrite K1 by auto. apply H0.
      - destruct K2 as (x & E); auto. rewrite E. apply H0.
      - rewrite K3 by auto. apply H0.
      - rewrite K4 by auto. rewrite H3. cbn [rg_data].
        destruct (er_to_entry (mkER o (o + entry_len data o) p) data) as [y|y| |] eqn:Ey; try apply H0.
        rewrite H3 in Hstep. pose proof (zlen_nonneg data) as Hz0.
        apply (Hstep (mkRanges data (zlen data) stop p) []); cbn [rg_data rg_start rg_end]; auto; [intros x []|now left|apply nw_end; lia].
      - rewrite K4 by auto. rewrite H3. cbn [rg_data].
        destruct (er_to_entry (mkER o (o + entry_len data o) p) data) as [y|y| |] eqn:Ey; try apply H0.
        rewrite H3 in Hstep. apply (Hstep (mkRanges data (o + entry_len data o) stop (pos_add p (entry_len data o))) l0); cbn [rg_data rg_start rg_end]; auto; [lia|intros x Hx; now right|now left]. }
    unfold index_find. destruct Hix as (q & Hroot & Hrest). rewrite Hroot.
    destruct (node_walk_exists (root_entries root) (zlen (root_entries root)) Hrb ltac:(lia) 0 ltac:(lia)) as (l & e & Wk).
    eapply (Hmain fuel _ h l e); cbn [rg_data rg_start rg_end]; eauto; lia.
  Qed.

  (** Iterating. [stack] : what is left of the nodes on the stack, and the number of records they still lead to. *)
  Section Iterate.
    Context (size : Z -> nat) (Hs1 : forall vcn, (1 <= size vcn)%nat)
      (Hs2 : forall vcn data offs e, child vcn data -> node_walk data (24 + field 4 data 28) (24 + field 4 data 24) offs e -> (1 + list_sum (map size (refs data offs)) <= size vcn)%nat).
    Let w data l := list_sum (map size (refs data l)).

    Inductive stack : list ranges -> nat -> Prop :=
    | stack_nil : stack [] 0
    | stack_cons g gs l e k : bytes_ok (rg_data g) -> 0 <= rg_start g -> rg_end g <= zlen (rg_data g) -> node_walk (rg_data g) (rg_end g) (rg_start g) l e -> stack gs k ->
        stack (g :: gs) (w (rg_data g) l + k).

    Lemma w_tail data o l : (w data l <= w data (o :: l))%nat.
    Proof. unfold w, refs. cbn [filter]. destruct (_ && _); cbn [map list_sum fold_right]; unfold list_sum; cbn [fold_right]; lia. Qed.
    Lemma w_refers data o l vcn : refers data o vcn -> w data (o :: l) = (size vcn + w data l)%nat.
    Proof.
      intros (H1 & H2 & ->). unfold w, refs. cbn [filter]. rewrite H1. replace (24 <=? entry_len data o) with true by lia. reflexivity.
    Qed.

    Context (fuel0 : nat) (d0 : dev) (ix : index) (Hfu : (length offs < fuel0)%nat) (Hdi : directory_index fuel0 nt f d0 = (d0, Ok ix)) (Hix : dir_ix nt img f root alloc ix).

    Lemma cost_entries fuel : forall n st k d, stack (es_iters st) k -> gd d ->
      exists d' st' x k' u, entries_loop (index_subnode fuel nt ix) n st d = (d', (st', x)) /\ stack (es_iters st') k' /\ gd d' /\ paid (u * c) d d' /\ (u + k' <= k)%nat.
    Proof.
      induction n as [|n IH]; intros [its fs] k d St Hg; cbn [es_iters es_following] in *.
      - exists d, (mkIEs its fs), (Some OutOfFuel), k, 0%nat. splits; auto. apply paid_0.
      - cbn [entries_loop es_iters es_following]. inversion St as [|g gs l e k1 Hbg Ho Hs Wk Sb]; subst.
        { exists d, (mkIEs [] fs), None, 0%nat, 0%nat. splits; auto. apply paid_0. }
        destruct g as [data o stop p]. cbn [rg_data rg_start rg_end] in *.
        destruct (ranges_next_spec data Hbg stop Hs o p Ho) as (K1 & K2 & K3 & K4).
        assert (Hstay : forall (x : item ientry) fs', exists d' st' x' k' u, (d, (mkIEs (mkRanges data o stop p :: gs) fs', x)) = (d', (st', x')) /\ stack (es_iters st') k' /\ gd d' /\ paid (u * c) d d' /\ (u + k' <= w data l + k1)%nat).
        { intros x fs'. exists d, (mkIEs (mkRanges data o stop p :: gs) fs'), x, (w data l + k1)%nat, 0%nat. splits; auto. apply paid_0. }
        assert (Hstep : forall g' l' e', rg_data g' = data -> 0 <= rg_start g' -> rg_end g' <= zlen data -> node_walk data (rg_end g') (rg_start g') l' e' ->
          (w data l' <= w data l)%nat -> (forall vcn, refers data o vcn -> size vcn + w data l' <= w data l)%nat -> entry_fits data o -> 13 <= entry_len data o ->
          exists d' st' x' k' u, 
            match (let? e := er_to_entry (mkER o (o + entry_len data o) p) (rg_data g') in let? last := ie_is_last e in Ok (e, last)) with
              | Ok (e, last) =>
                  match ie_subnode_vcn e with
                  | Some (Ok vcn) =>
                      match index_subnode fuel nt ix vcn d with
                      | (d1, Ok sg) =>
                          entries_loop (index_subnode fuel nt ix) n
                            (mkIEs (sg :: g' :: gs) ((if (last : bool) then None else Some (mkER o (o + entry_len data o) p)) :: fs)) d1
                      | (d1, Err x) => (d1, (mkIEs (g' :: gs) fs, Some (Err x)))
                      | (d1, Panic) => (d1, (mkIEs (g' :: gs) fs, Some Panic))
                      | (d1, OutOfFuel) => (d1, (mkIEs (g' :: gs) fs, Some OutOfFuel))
                      end
                  | Some (Err x) => (d, (mkIEs (g' :: gs) fs, Some (Err x)))
                  | Some Panic => (d, (mkIEs (g' :: gs) fs, Some Panic))
                  | Some OutOfFuel => (d, (mkIEs (g' :: gs) fs, Some OutOfFuel))
                  | None => if (last : bool) then entries_loop (index_subnode fuel nt ix) n (mkIEs (g' :: gs) fs) d else (d, entries_yield (mkIEs (g' :: gs) fs) (mkER o (o + entry_len data o) p))
                  end
              | Err x => (d, (mkIEs (g' :: gs) fs, Some (Err x)))
              | Panic => (d, (mkIEs (g' :: gs) fs, Some Panic))
              | OutOfFuel => (d, (mkIEs (g' :: gs) fs, Some OutOfFuel))
              end = (d', (st', x')) /\ stack (es_iters st') k' /\ gd d' /\ paid (u * c) d d' /\ (u + k' <= w data l + k1)%nat).
        { intros g' l' e' A1 A2 A3 A4 A5 A6 A7 A8.
          assert (St' : stack (g' :: gs) (w data l' + k1)) by (rewrite <- A1; eapply stack_cons; rewrite ?A1; eauto).
          assert (Hout : forall (x : item ientry), exists d' st' x' k' u, (d, (mkIEs (g' :: gs) fs, x)) = (d', (st', x')) /\ stack (es_iters st') k' /\ gd d' /\ paid (u * c) d d' /\ (u + k' <= w data l + k1)%nat).
          { intros x. exists d, (mkIEs (g' :: gs) fs), x, (w data l' + k1)%nat, 0%nat. splits; auto; try apply paid_0; try lia. }
          rewrite A1. destruct (range_entry data o p Hbg Ho A7 A8) as [(H16 & Ee)|(_ & z & Ee)]; rewrite Ee; cbn [rbind]; [|apply Hout].
          rewrite ie_is_last_bytes by auto. replace (entry_len data o <? 13) with false by lia. cbn [rbind].
          destruct (entry_subnode_cases data o p Hbg Ho A7 H16) as [E|[(z & E)|(vcn & E & Hv)]]; rewrite E; try apply Hout.
          - destruct (entry_is_last data o); [|unfold entries_yield; cbn [es_iters]; apply Hout].
            destruct (IH (mkIEs (g' :: gs) fs) _ d St' Hg) as (d' & st' & x & k' & u & R1 & R2 & R3 & R4 & R5). exists d', st', x, k', u. splits; auto. lia.
          - pose proof (cost_subnode fuel0 d0 ix fuel vcn d Hfu Hdi Hix Hg) as Hc.
            destruct (dir_sub_total nt img f offs root alloc Hib Hb Hl Hcs D Hclear true ltac:(discriminate) ix vcn d Hix Hg) as (d1 & rs & Es & Hg1 & _ & Hok).
            rewrite (subnode_fuel nt img f root alloc Hb ix fuel vcn d Hix) in *. rewrite Es in *. cbn [fst] in Hc.
            assert (Hone : exists u, ((if (vcn <? 0)%Z then 0 else c) = u * c)%nat /\ (u + w data l' <= w data l)%nat).
            { destruct (Z.ltb_spec vcn 0) as [|Hv0]; [exists 0%nat; lia|]. specialize (A6 vcn (Hv Hv0)). specialize (Hs1 vcn). exists 1%nat. lia. }
            destruct Hone as (u & Eu & Hu). rewrite Eu in Hc.
            assert (Hout1 : forall (x : item ientry), exists d' st' x' k' u, (d1, (mkIEs (g' :: gs) fs, x)) = (d', (st', x')) /\ stack (es_iters st') k' /\ gd d' /\ paid (u * c) d d' /\ (u + k' <= w data l + k1)%nat).
            { intros x. exists d1, (mkIEs (g' :: gs) fs), x, (w data l' + k1)%nat, u. splits; auto. lia. }
            destruct rs as [sg|z| |]; try apply Hout1.
            destruct (Hok sg eq_refl) as (Hv0 & data' & q' & Hch & ->). specialize (A6 vcn (Hv Hv0)).
            destruct (dir_child_ok nt img f offs root alloc Hib D vcn data' Hch) as (Hb' & Hs'). pose proof (field4_bound data' 24 Hb').
            destruct (node_walk_exists data' (24 + field 4 data' 28) Hb' Hs' (24 + field 4 data' 24) ltac:(lia)) as (l2 & e2 & W2).
            pose proof (Hs2 vcn data' l2 e2 Hch W2) as H2. fold (w data' l2) in H2.
            pose proof (stack_cons (mkRanges data' (24 + field 4 data' 24) (24 + field 4 data' 28) q') _ l2 e2 _ Hb' ltac:(cbn [rg_start]; lia) Hs' W2 St') as S2. cbn [rg_data] in S2.
            match goal with |- context [entries_loop _ n ?s d1] => destruct (IH s _ d1 S2 Hg1) as (d' & st' & x & k' & u2 & R1 & R2 & R3 & R4 & R5) end.
            replace (vcn <? 0) with false in Eu by lia.
            exists d', st', x, k', (1 + u2)%nat. splits; auto; [|lia].
            rewrite Nat.mul_add_distr_r, Nat.mul_1_l. eapply paid_trans; [|exact R4]. now rewrite Eu. }
        inversion Wk; subst.
        + rewrite K1 by auto. destruct fs as [|[r|] fs].
          * exists d, (mkIEs gs []), None, k1, 0%nat. splits; auto; try apply paid_0; try lia.
          * assert (Hy : exists y, entries_yield (mkIEs gs fs) r = (mkIEs gs fs, y)) by (unfold entries_yield; cbn [es_iters]; destruct gs; eauto).
            destruct Hy as (y & Ey). rewrite Ey. exists d, (mkIEs gs fs), y, k1, 0%nat. splits; auto; try apply paid_0; try lia.
          * destruct (IH (mkIEs gs fs) k1 d Sb Hg) as (d' & st' & x & k' & u & R1 & R2 & R3 & R4 & R5). exists d', st', x, k', u. splits; auto.
        + destruct K2 as (x & E); auto. rewrite E. apply Hstay.
        + rewrite K3 by auto. apply Hstay.
        + rewrite K4 by auto. match goal with H : entry_is_last data o = _ |- _ => rewrite H end. pose proof (zlen_nonneg data) as Hz0.
          apply (Hstep (mkRanges data (zlen data) stop p) [] NodeDone); cbn [rg_data rg_start rg_end]; auto; [apply nw_end; lia|unfold w; cbn; lia|].
          intros vcn Hr. rewrite (w_refers data o [] vcn Hr). lia.
        + rewrite K4 by auto. match goal with H : entry_is_last data o = _ |- _ => rewrite H end.
          match goal with H : node_walk data stop (o + _) ?l0 _ |- _ => rename l0 into lt end.
          apply (Hstep (mkRanges data (o + entry_len data o) stop (pos_add p (entry_len data o))) lt e); cbn [rg_data rg_start rg_end]; auto; [lia|apply w_tail|].
          intros vcn Hr. rewrite (w_refers data o lt vcn Hr). lia.
    Qed.

    Lemma cost_iterate fuel n : forall st k d, stack (es_iters st) k -> gd d ->
      exists d' st' k' u, Nat.iter n (fun s => fst (with_dev (entries_next fuel nt ix) s)) (st, d) = (st', d') /\ stack (es_iters st') k' /\ gd d' /\ paid (u * c) d d' /\ (u + k' <= k)%nat.
    Proof.
      induction n as [|n IH]; intros st k d St Hg; [exists d, st, k, 0%nat; splits; auto; apply paid_0|].
      destruct (IH st k d St Hg) as (d1 & st1 & k1 & u1 & R1 & R2 & R3 & R4 & R5).
      destruct (cost_entries fuel fuel st1 k1 d1 R2 R3) as (d2 & st2 & x & k2 & u2 & Q1 & Q2 & Q3 & Q4 & Q5).
      exists d2, st2, k2, (u1 + u2)%nat. match goal with |- Nat.iter (S n) ?g ?x = _ /\ _ => change (Nat.iter (S n) g x) with (g (Nat.iter n g x)) end. rewrite R1. unfold with_dev, entries_next. cbn [fst snd]. rewrite Q1. cbn [fst]. splits; auto; [|lia].
      rewrite Nat.mul_add_distr_r. now apply (paid_trans _ _ d d1).
    Qed.
  End Iterate.
End Lookup.

Lemma cost_lookup nt img f offs clean root alloc c h fuel d : bytes_ok img -> bytes_ok (f_data f) -> 24 <= zlen (f_data f) ->
  attr_walk (f_data f) (field 2 (f_data f) 20) offs clean -> no_attribute_list (f_data f) offs -> 1 <= cluster_size nt ->
  is_directory (cluster_size nt) img (f_data f) offs root alloc -> arrays_clear (cluster_size nt) (root_record_size root) alloc ->
  record_pieces (cluster_size nt) (f_data f) offs root c -> levels (index_child (cluster_size nt) root alloc) (root_entries root) h ->
  (length offs < fuel)%nat -> faultless d -> d_img d = img ->
  exists ix, directory_index fuel nt f d = (d, Ok ix) /\
  (forall name n, let d' := fst (file_name_find n nt ix name d) in seeks_within (h * c + short_reads d d') d d') /\
  forall K (kp : list Z -> position -> res K) cmp n, let d' := fst (index_find kp cmp n nt ix d) in seeks_within (h * c + short_reads d d') d d'.
Proof.
  intros Hib Hb Hl W Hno Hcs D Hclear Hp Hlev Hfu Hf Hi.
  destruct (directory_index_ok nt img f offs clean root alloc Hb Hl W Hno D fuel d Hfu) as (ix & E & Hix).
  assert (H : forall K (kp : list Z -> position -> res K) cmp n, let d' := fst (index_find kp cmp n nt ix d) in seeks_within (h * c + short_reads d d') d d').
  { intros. apply paid_within.
    apply (cost_find nt img f offs clean root alloc Hib Hb Hl W Hno Hcs D Hclear c Hp h Hlev kp cmp fuel d ix n d Hfu E Hix). now apply faultless_good. }
  exists ix. split; [exact E|]. split; [|exact H]. intros name n. unfold file_name_find. apply H.
Qed.

Lemma cost_listing nt img f offs clean root alloc c k fuel d : bytes_ok img -> bytes_ok (f_data f) -> 24 <= zlen (f_data f) ->
  attr_walk (f_data f) (field 2 (f_data f) 20) offs clean -> no_attribute_list (f_data f) offs -> 1 <= cluster_size nt ->
  is_directory (cluster_size nt) img (f_data f) offs root alloc -> arrays_clear (cluster_size nt) (root_record_size root) alloc ->
  record_pieces (cluster_size nt) (f_data f) offs root c -> records_within (index_child (cluster_size nt) root alloc) (root_entries root) k ->
  (length offs < fuel)%nat -> faultless d -> d_img d = img ->
  exists ix, directory_index fuel nt f d = (d, Ok ix) /\
  forall j n, let d' := snd (Nat.iter n (fun s => fst (with_dev (entries_next j nt ix) s)) (index_entries ix, d)) in seeks_within (k * c + short_reads d d') d d'.
Proof.
  intros Hib Hb Hl W Hno Hcs D Hclear Hp (size & S1 & S2 & S3) Hfu Hf Hi.
  destruct (directory_index_ok nt img f offs clean root alloc Hb Hl W Hno D fuel d Hfu) as (ix & E & Hix).
  assert (Hrb : bytes_ok (root_entries root)) by (apply bytes_ok_slice; eapply root_bytes_ok; eauto).
  destruct (node_walk_exists (root_entries root) (zlen (root_entries root)) Hrb ltac:(lia) 0 ltac:(lia)) as (l & e & Wk).
  exists ix. split; [exact E|]. intros j n. pose proof Hix as (q & Hroot & _).
  assert (St : stack size (es_iters (index_entries ix)) (list_sum (map size (refs (root_entries root) l)) + 0)).
  { unfold index_entries. cbn [es_iters]. rewrite Hroot. apply (stack_cons size (mkRanges (root_entries root) 0 (zlen (root_entries root)) q) [] l e 0); cbn [rg_data rg_start rg_end]; auto; try lia. constructor. }
  destruct (cost_iterate nt img f offs clean root alloc Hib Hb Hl W Hno Hcs D Hclear c Hp size S1 S2 fuel d ix Hfu E Hix j n _ _ d St ltac:(now apply faultless_good)) as (d' & st' & k' & u & R1 & _ & _ & R4 & R5).
  rewrite R1. cbn [snd]. apply paid_within. eapply paid_le; [|exact R4]. apply Nat.mul_le_mono_r. specialize (S3 l e Wk). lia.
Qed.

(** ** The directory of [IndexExamples] *)
Lemma ex_dir_records : records_within (index_child 512 ex_dir_root (ex_dir_alloc ex_dir_img)) (root_entries ex_dir_root) 2.
Proof.
  exists (fun _ => 1%nat). split; [lia|]. split.
  - intros vcn data offs e Hc W.
    destruct (ex_dir_children _ _ Hc) as [(_ & ->)|(_ & ->)];
    [destruct (node_walk_fun _ _ _ _ _ _ _ W ex_walk0) as (-> & _)|destruct (node_walk_fun _ _ _ _ _ _ _ W ex_walk2) as (-> & _)]; vm_compute; lia.
  - intros offs e W. assert (W' : node_walk (root_entries ex_dir_root) (zlen (root_entries ex_dir_root)) 0 [0; 96] NodeDone) by (apply (node_offs_ok 10); vm_compute; reflexivity).
    destruct (node_walk_fun _ _ _ _ _ _ _ W W') as (-> & _). vm_compute. lia.
Qed.
Lemma ex_dir_no_list : no_attribute_list (f_data ex_dir) ex_dir_offs.
Proof. repeat constructor; vm_compute; discriminate. Qed.
Lemma ex_dir_levels : levels (index_child 512 ex_dir_root (ex_dir_alloc ex_dir_img)) (root_entries ex_dir_root) 1.
Proof.
  exists (fun _ => O). split; [intros; lia|]. intros vcn data offs e o vcn' Hc W Ho (Hr & _). exfalso.
  destruct (ex_dir_children _ _ Hc) as [(_ & ->)|(_ & ->)];
  [destruct (node_walk_fun _ _ _ _ _ _ _ W ex_walk0) as (-> & _)|destruct (node_walk_fun _ _ _ _ _ _ _ W ex_walk2) as (-> & _)];
  destruct Ho as [<-|[<-|[]]]; vm_compute in Hr; discriminate.
Qed.
Lemma ex_dir_pieces : record_pieces 512 (f_data ex_dir) ex_dir_offs ex_dir_root 1.
Proof.
  intros o l vcn (l1 & l2 & El & _ & Hm) He Hv. 
  assert (Ho : o = 56 \/ o = 240).
  { assert (Hi : In o ex_dir_offs) by (rewrite El; apply in_or_app; right; left; reflexivity). vm_compute in Hi. intuition. }
  destruct Ho as [-> | ->]; [exfalso; destruct Hm as (Hm & _); vm_compute in Hm; discriminate|].
  assert (Es : slice (f_data ex_dir) (240 + field 2 (f_data ex_dir) (240 + 32)) (240 + attr_len_at (f_data ex_dir) 240) = [17; 4; 2; 0; 0; 0; 0; 0]) by (vm_compute; reflexivity).
  rewrite Es in He. clear - He.
  remember 0 as prev eqn:Ep in He at 1. remember [17; 4; 2; 0; 0; 0; 0; 0] as bs eqn:Eb.
  destruct He as [? ?|?|? lcn count cb ob l bs (_ & H1 & H2) (_ & H3 & _) H|? count cb l bs (_ & H1 & H2) H]; try discriminate; injection Eb as E1 E2.
  - assert (zlen cb = 1 /\ zlen ob = 1) as (C1 & O1) by lia.
    destruct cb as [|b0 [|b' t]]; rewrite ?zlen_cons in C1; [change (zlen (@nil Z)) with 0 in C1; lia| |pose proof (zlen_nonneg t); lia].
    destruct ob as [|b1 [|b' t]]; rewrite ?zlen_cons in O1; [change (zlen (@nil Z)) with 0 in O1; lia| |pose proof (zlen_nonneg t); lia].
    injection E2 as -> -> ->. 
    remember [0; 0; 0; 0; 0] as bs eqn:Eb.
    destruct H as [? ?|?|? lcn' count' cb ob l bs (_ & K1 & K2) (_ & K3 & _) H|? count' cb l bs (_ & K1 & K2) H]; try discriminate; try (injection Eb as E3 E4; lia).
    cbn [touched e_lcn]. cbv zeta. destruct (_ && _); cbn; lia.
  - lia.
Qed.
