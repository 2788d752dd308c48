(** * The resident reader refines a cursor. *)
From Verif Require Import Base Dev Types DataRuns Stream Resident Spec BaseProofs DevProofs ReaderProofs.

Lemma seek_contiguous_spec p len sf : 0 <= p <= U64_MAX -> 0 <= len <= U64_MAX -> seek_arg_ok sf ->
  let q := seek_target len p sf in
  (0 <= q <= U64_MAX /\ seek_contiguous p len sf = (q, Ok q)) \/
  (~ (0 <= q <= U64_MAX) /\ seek_contiguous p len sf = (p, Err (EIo InvalidInput))).
Proof.
  intros Hp Hl Ha q. unfold seek_contiguous.
  assert (Hg : forall base n, 0 <= base <= U64_MAX -> I64_MIN <= n <= I64_MAX ->
    (if 0 <=? n then checked_add64 base n else checked_sub64 base ((- n) mod TWO64)) =
     if (0 <=? base + n) && (base + n <=? U64_MAX) then Some (base + n) else None).
  { intros base n Hb Hn. destruct (0 <=? n) eqn:E.
    - unfold checked_add64. destruct (base + n <=? U64_MAX) eqn:E2; destruct (_ && _) eqn:E3; auto; lia.
    - rewrite Z.mod_small by (unfold TWO64, I64_MIN in *; lia). unfold checked_sub64.
      destruct (- n <=? base) eqn:E2; destruct (_ && _) eqn:E3; auto; try lia. f_equal; lia. }
  destruct sf as [n|n|n]; cbn [seek_target seek_arg_ok] in *.
  - left. split; auto.
  - subst q. rewrite Hg by lia. destruct (_ && _) eqn:E; [left|right]; split; auto; lia.
  - subst q. rewrite Hg by lia. destruct (_ && _) eqn:E; [left|right]; split; auto; lia.
Qed.

Lemma res_refines data p : zlen data <= U64_MAX ->
  refines res_read res_seek (fun v => rv_data v = data /\ rv_position v = p /\ 0 <= rv_sp v <= U64_MAX) res_stream_position (fun _ => True) data (zlen data).
Proof.
  intros Hl. split.
  - now intros s (_ & _ & H).
  - intros s d n (H1 & H2 & H3) _ Hn. unfold res_read, res_len, res_stream_position. rewrite H1.
    destruct (Z.max 0 (zlen data - rv_sp s) =? 0) eqn:E.
    + rewrite (zdrop_all (rv_sp s)) by lia. exists d, s. cbn [ztake zlen length Z.of_nat]. change (zlen (@nil Z)) with 0. repeat split; auto; lia.
    + unfold idx_range. rewrite get_range_in by lia.
      assert (Hs : slice data (rv_sp s) (rv_sp s + Z.min n (Z.max 0 (zlen data - rv_sp s))) = ztake n (zdrop (rv_sp s) data)).
      { unfold slice. replace (rv_sp s + _ - rv_sp s) with (Z.min n (zlen data - rv_sp s)) by lia.
        destruct (Z_le_gt_dec n (zlen data - rv_sp s)); [f_equal; lia|].
        rewrite !ztake_all; auto; rewrite zlen_zdrop; lia. }
      rewrite Hs. do 2 eexists; split; [reflexivity|].
      cbn [rv_sp rv_data rv_position]. rewrite zlen_ztake, zlen_zdrop. repeat split; auto; lia.
  - intros s d sf (H1 & H2 & H3) _ Ha q. unfold res_seek, res_len. rewrite H1.
    destruct (seek_contiguous_spec (rv_sp s) (zlen data) sf H3) as [(Hq & E)|(Hq & E)]; auto; fold (res_stream_position s) in *; fold q in Hq; rewrite E.
    + do 2 eexists; split; [exact I|]. split; [|left; split; [auto|]; split; [fold q; reflexivity|reflexivity]]. cbn. auto.
    + do 2 eexists; split; [exact I|]. split; [|right; split; [auto|]; split; [reflexivity|]].
      * cbn. auto.
      * destruct s; cbn in *; now subst.
Qed.

Lemma res_data_position_spec v : 0 <= rv_sp v <= res_len v ->
  forall p, rv_position v = Some p -> 0 < p -> p + res_len v < TWO64 -> res_data_position v = Some (p + rv_sp v).
Proof.
  intros Hs p Hp Hp0 Hb. unfold res_data_position. replace (rv_sp v <=? res_len v) with true by lia.
  rewrite Hp. cbn. rewrite Z.mod_small by lia. unfold pos_new. replace (_ =? 0) with false by lia. reflexivity.
Qed.

Lemma res_history_cursor data p d ops : zlen data <= U64_MAX -> Forall op_ok ops ->
  reader_run res_read res_seek (res_new data p) d ops = cursor_run data (zlen data) 0 ops.
Proof.
  intros Hl Ho. change 0 with (res_stream_position (res_new data p)).
  eapply refines_history; [apply (res_refines data p Hl)| | |auto]; cbn; auto. unfold U64_MAX. repeat split; auto; lia.
Qed.

Lemma res_history_read_exact data p d ops d1 v1 n : zlen data <= U64_MAX -> Forall op_ok ops -> 0 <= n ->
  reader_exec res_read res_seek (res_new data p) d ops = (d1, v1) ->
  exists d2 v2 out, rs_read_exact res_read v1 n d1 = (d2, (v2, out)) /\
    (res_stream_position v1 + n <= zlen data -> out = Ok (slice data (res_stream_position v1) (res_stream_position v1 + n)) /\
       res_stream_position v2 = res_stream_position v1 + n) /\
    (zlen data < res_stream_position v1 + n -> 0 < n -> out = Err (EIo UnexpectedEof)).
Proof.
  intros Hl Ho Hn Hex.
  destruct (refines_exec _ _ _ _ _ _ _ (res_refines data p Hl) ops (res_new data p) d) with (d' := d1) (s' := v1) as (I1 & _); auto.
  { cbn. unfold U64_MAX; repeat split; auto; lia. }
  destruct (refines_read_exact _ _ _ _ _ _ _ (res_refines data p Hl) v1 d1 n I1 Logic.I Hn) as (d2 & v2 & _ & _ & Hc).
  unfold slice. replace (res_stream_position v1 + n - res_stream_position v1) with n by lia.
  destruct Hc as [(H1 & -> & H2)|[(H1 & H2 & ->)|(-> & -> & H2)]]; do 3 eexists; (split; [reflexivity|]); split; intros; auto; try lia.
  split; [|lia]. now rewrite ztake_0 by lia.
Qed.
