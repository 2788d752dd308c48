(** * What [read] does to the stream position, on every value state and every device. *)
From Verif Require Import Base Dev Types Record DataRuns Stream NonResident Resident Attribute File Structured AttrList Spec BaseProofs.
From Coq Require Import Lia.

Lemma dev_read_at_most n d d' bs : 0 <= n -> dev_read n d = (d', Ok bs) -> zlen bs <= n.
Proof.
  intros Hn. unfold dev_read. destruct (d_reads d) as [|[k|e] t].
  - intros [= <- <-]. rewrite zlen_ztake. lia.
  - intros [= <- <-]. rewrite !zlen_ztake. lia.
  - discriminate.
Qed.

Lemma run_read_at_most r n d d' r' bs : 0 <= n -> run_read r n d = (d', (r', Ok bs)) -> zlen bs <= n.
Proof.
  intros Hn. unfold run_read. destruct (run_remaining r =? 0); [intros [= <- <- <-]; cbn; lia|].
  assert (Hk : 0 <= run_remaining r) by (unfold run_remaining; lia).
  destruct (r_pos r) as [p|].
  - destruct (U64_MAX <? _); [discriminate|]. destruct (dev_seek _ d) as [d1 [u|e| |]]; try discriminate.
    destruct (dev_read _ d1) as [d2 [b|e| |]] eqn:E; try discriminate. intros [= <- <- <-]. apply dev_read_at_most in E; lia.
  - intros [= <- <- <-]. rewrite zlen_zrepeat. lia.
Qed.

Lemma ss_read_pos s n d d' s' x : 0 <= n -> ss_read_data_run s n d = (d', (s', x)) ->
  ss_size s' = ss_size s /\
  match x with
  | Ok bs => zlen bs <= n /\ ss_pos s' = ss_pos s + zlen bs /\ (bs = [] \/ ss_pos s' <= ss_size s)
  | _ => ss_pos s' = ss_pos s
  end.
Proof.
  intros Hn. unfold ss_read_data_run. destruct (ss_run s) as [r|]; [|intros [= <- <- <-]; change (zlen (@nil Z)) with 0; repeat split; auto; lia].
  destruct (_ <=? _); [intros [= <- <- <-]; change (zlen (@nil Z)) with 0; repeat split; auto; lia|].
  destruct (_ =? 0); [intros [= <- <- <-]; change (zlen (@nil Z)) with 0; repeat split; auto; lia|].
  destruct (run_read r _ d) as [d1 [r1 [b|e| |]]] eqn:E; intros [= <- <- <-]; cbn [ss_size ss_pos]; auto.
  apply run_read_at_most in E; [|lia]. split; auto. split; [lia|]. split; auto.
  destruct b; auto. right. pose proof (zlen_nonneg (z :: b)). unfold zlen in E at 1. cbn [length] in E. unfold zlen in *. cbn [length] in *. lia.
Qed.

Section Ops.
  Context {S : Type} (o : stream_ops S).
  Hypothesis Hset : forall s x, so_ss o (so_set o s x) = x.
  Hypothesis Hadv : forall s d d' s' x, so_advance o s d = (d', (s', x)) -> ss_pos (so_ss o s') = ss_pos (so_ss o s) /\ ss_size (so_ss o s') = ss_size (so_ss o s).

  Lemma stream_read_pos fuel : forall s n acc d d' s' x, 0 <= n -> zlen acc <= n -> stream_read_loop o fuel s n acc d = (d', (s', x)) ->
    ss_size (so_ss o s') = ss_size (so_ss o s) /\
    match x with
    | Ok bs => exists more, bs = acc ++ more /\ zlen bs <= n /\ ss_pos (so_ss o s') = ss_pos (so_ss o s) + zlen more /\
                 (more = [] \/ ss_pos (so_ss o s') <= ss_size (so_ss o s))
    | _ => ss_pos (so_ss o s) <= ss_pos (so_ss o s') <= Z.max (ss_pos (so_ss o s)) (ss_size (so_ss o s))
    end.
  Proof.
    induction fuel as [|fuel IH]; intros s n acc d d' s' x Hn Ha; cbn [stream_read_loop]; destruct (n <=? zlen acc) eqn:E0.
    - intros [= <- <- <-]. split; auto. exists []. rewrite app_nil_r, zlen_nil. repeat split; auto; lia.
    - intros [= <- <- <-]. split; auto. lia.
    - intros [= <- <- <-]. split; auto. exists []. rewrite app_nil_r, zlen_nil. repeat split; auto; lia.
    - destruct (ss_read_data_run (so_ss o s) (n - zlen acc) d) as [d1 [ss1 r]] eqn:E1.
      assert (Hk : 0 <= n - zlen acc) by lia. pose proof (ss_read_pos _ _ _ _ _ _ Hk E1) as (Hs1 & H1).
      destruct r as [[|b bs]|e| |].
      + destruct (so_advance o (so_set o s ss1) d1) as [d2 [s2 r2]] eqn:E2. pose proof (Hadv _ _ _ _ _ E2) as (P2 & S2). rewrite Hset in P2, S2.
        rewrite zlen_nil in H1. destruct H1 as (_ & P1 & _).
        destruct r2 as [[|]|e| |]; try (intros [= <- <- <-]; split; [congruence|lia]).
        * intros H. apply IH in H; auto. destruct H as (Hs & Hx). split; [congruence|]. rewrite P2, P1, S2, Hs1 in Hx. rewrite Z.add_0_r in Hx. exact Hx.
        * intros [= <- <- <-]. split; [congruence|]. exists []. rewrite app_nil_r, zlen_nil. repeat split; auto; lia.
      + destruct H1 as (L1 & P1 & B1). destruct B1 as [B1|B1]; [discriminate|]. intros H. apply IH in H; [|auto|rewrite zlen_app; lia].
        rewrite Hset in H. destruct H as (Hs & Hx). split; [congruence|]. destruct x as [bs'|e| |].
        * destruct Hx as (more & -> & L & P & B). exists ((b :: bs) ++ more). split; [now rewrite app_assoc|]. split; auto. split; [rewrite zlen_app; lia|].
          right. destruct B as [->|B]; [rewrite zlen_nil in P; lia|lia].
        * pose proof (zlen_nonneg (b :: bs)). lia.
        * pose proof (zlen_nonneg (b :: bs)). lia.
        * pose proof (zlen_nonneg (b :: bs)). lia.
      + intros [= <- <- <-]. rewrite Hset. split; [congruence|lia].
      + intros [= <- <- <-]. rewrite Hset. split; [congruence|lia].
      + intros [= <- <- <-]. rewrite Hset. split; [congruence|lia].
  Qed.
End Ops.

Lemma nr_advance_pos v v' x : nr_next_data_run v = (v', x) -> ss_pos (nv_ss v') = ss_pos (nv_ss v) /\ ss_size (nv_ss v') = ss_size (nv_ss v).
Proof.
  unfold nr_next_data_run. destruct (druns_next _ _ _ _) as [s' [[r|e| |]|]]; intros [= <- <-]; auto.
Qed.
Lemma nr_read_moves v n d d' v' x : 0 <= n -> nr_read v n d = (d', (v', x)) -> moves (nr_stream_position v) (nr_stream_position v') (nr_len v) (nr_len v') n x.
Proof.
  intros Hn H. unfold nr_read in H. apply stream_read_pos in H; [|reflexivity| |auto|cbn; lia].
  2: { intros s d0 d1 s1 y [= <- E]. cbn. eapply nr_advance_pos; eauto. }
  destruct H as (Hs & Hx). split; [exact Hs|]. destruct x as [bs|e| |]; auto. destruct Hx as (more & -> & L & P & B). auto.
Qed.

Lemma lv_next_entry_ss v d d' v' x : lv_next_entry v d = (d', (v', x)) -> lv_ss v' = lv_ss v /\ lv_size v' = lv_size v.
Proof.
  unfold lv_next_entry. destruct (lv_entries v) as [l|]; [|intros [= <- <- <-]; auto].
  destruct (alist_next l d) as [d1 [l1 [[e|e| |]|]]]; try (intros [= <- <- <-]; auto).
  destruct (_ =? _); [|intros [= <- <- <-]; auto]. destruct (le_ty e); try (intros [= <- <- <-]; auto). destruct (_ =? _); intros [= <- <- <-]; auto.
Qed.
Lemma lv_next_attribute_pos v d d' v' x : lv_next_attribute v d = (d', (v', x)) ->
  ss_pos (lv_ss v') = ss_pos (lv_ss v) /\ ss_size (lv_ss v') = ss_size (lv_ss v) /\ lv_size v' = lv_size v.
Proof.
  unfold lv_next_attribute. destruct (lv_next_entry v d) as [d1 [v1 r]] eqn:E. pose proof (lv_next_entry_ss _ _ _ _ _ E) as (E1 & E2).
  assert (K : forall (d2 : dev) (r2 : res bool), (d2, (v1, r2)) = (d', (v', x)) -> ss_pos (lv_ss v') = ss_pos (lv_ss v) /\ ss_size (lv_ss v') = ss_size (lv_ss v) /\ lv_size v' = lv_size v).
  { intros d2 r2 [= <- <- <-]. rewrite E1, E2. auto. }
  destruct r as [[e|e| |]|]; eauto. destruct (le_to_file _ _ _) as [d2 [f|y| |]]; eauto. destruct (le_to_attribute e f) as [a|y| |]; eauto.
  destruct (lv_attr_runs a) as [[data p]|y| |]; eauto. destruct (druns_next _ _ _ _) as [s' [[r|y| |]|]]; eauto.
  intros [= <- <- <-]. cbn. rewrite E1, E2. auto.
Qed.
Lemma lv_advance_pos v d d' v' x : lv_advance v d = (d', (v', x)) ->
  ss_pos (lv_ss v') = ss_pos (lv_ss v) /\ ss_size (lv_ss v') = ss_size (lv_ss v) /\ lv_size v' = lv_size v.
Proof.
  unfold lv_advance. destruct (lv_next_data_run v) as [v1 r] eqn:E.
  assert (K : ss_pos (lv_ss v1) = ss_pos (lv_ss v) /\ ss_size (lv_ss v1) = ss_size (lv_ss v) /\ lv_size v1 = lv_size v).
  { unfold lv_next_data_run in E. destruct (lv_attr v) as [a|]; [|injection E as <- <-; auto]. destruct (as_runs a) as [s|]; [|injection E as <- <-; auto].
    destruct (let? at_ := _ in _) as [[data p]|y| |]; try (injection E as <- <-; auto).
    destruct (druns_next _ _ _ _) as [s' [[r0|y| |]|]]; injection E as <- <-; auto. }
  destruct r as [[|]|e| |]; try (intros [= <- <- <-]; auto).
  intros H. apply lv_next_attribute_pos in H. destruct H as (H1 & H2 & H3), K as (K1 & K2 & K3). repeat split; congruence.
Qed.
Lemma stream_read_keep {S} (o : stream_ops S) (P : S -> Prop) : (forall s x, P s -> P (so_set o s x)) ->
  (forall s d d' s' x, so_advance o s d = (d', (s', x)) -> P s -> P s') ->
  forall fuel s n acc d d' s' x, stream_read_loop o fuel s n acc d = (d', (s', x)) -> P s -> P s'.
Proof.
  intros H1 H2. induction fuel as [|fuel IH]; intros s n acc d d' s' x; cbn [stream_read_loop]; destruct (n <=? zlen acc); try (intros [= <- <- <-]; auto).
  destruct (ss_read_data_run _ _ d) as [d1 [ss1 [[|b bs]|e| |]]]; try (intros [= <- <- <-]; auto).
  - destruct (so_advance _ _ d1) as [d2 [s2 [[|]|e| |]]] eqn:E; try (intros [= <- <- <-]; eauto). intros H Hp. eapply IH; eauto.
  - intros H Hp. eapply IH; eauto.
Qed.
Lemma lv_read_moves fuel v n d d' v' x : 0 <= n -> ss_size (lv_ss v) = lv_len v -> lv_read fuel v n d = (d', (v', x)) ->
  ss_size (lv_ss v') = lv_len v' /\ moves (lv_stream_position v) (lv_stream_position v') (lv_len v) (lv_len v') n x.
Proof.
  intros Hn Hz H. unfold lv_read in H.
  assert (Hl : lv_size v' = lv_size v).
  { eapply (stream_read_keep lv_ops (fun s => lv_size s = lv_size v)); [| |exact H|reflexivity]; [auto|].
    intros s d0 d1 s1 y E Hs. destruct (lv_advance_pos _ _ _ _ _ E) as (_ & _ & ->). exact Hs. }
  apply stream_read_pos in H; [|reflexivity| |auto|cbn; lia].
  2: { intros s d0 d1 s1 y E. cbn in E. destruct (lv_advance_pos _ _ _ _ _ E) as (? & ? & _). auto. }
  destruct H as (Hs & Hx). cbn [so_ss lv_ops] in *. unfold lv_len in *. split; [congruence|]. split; [exact Hl|].
  rewrite Hz in Hx. destruct x as [bs|e| |]; auto. destruct Hx as (more & -> & L & P & B). auto.
Qed.

Lemma res_read_moves v n d d' v' x : 0 <= n -> res_read v n d = (d', (v', x)) -> moves (res_stream_position v) (res_stream_position v') (res_len v) (res_len v') n x.
Proof.
  intros Hn. unfold res_read. destruct (_ =? 0) eqn:E; [intros [= <- <- <-]; split; auto; change (zlen (@nil Z)) with 0; repeat split; auto; unfold res_stream_position; lia|].
  destruct (idx_range _ _ _) as [bs|e| |] eqn:Ei; try (intros [= <- <- <-]; split; auto; unfold res_stream_position; lia).
  intros [= <- <- <-]. split; auto. unfold idx_range in Ei. destruct (get_range _ _ _) as [b|] eqn:Eg; [|discriminate]. injection Ei as ->.
  apply get_range_some in Eg. destruct Eg as (G1 & G2 & ->). cbn [res_stream_position rv_sp]. unfold res_stream_position. cbn [rv_sp]. rewrite slice_len by lia.
  unfold res_len. split; [lia|]. split; [lia|]. right. unfold res_len in *. lia.
Qed.

Lemma av_read_moves fuel v n d d' v' x : 0 <= n -> (forall l, v = AVList l -> ss_size (lv_ss l) = lv_len l) -> av_read fuel v n d = (d', (v', x)) ->
  (forall l, v' = AVList l -> ss_size (lv_ss l) = lv_len l) /\ moves (av_stream_position v) (av_stream_position v') (av_len v) (av_len v') n x.
Proof.
  intros Hn Hl. destruct v as [[r|r]|l]; cbn [av_read sv_read].
  - destruct (res_read r n d) as [d1 [r1 y]] eqn:E. intros [= <- <- <-]. split; [discriminate|]. eapply res_read_moves; eauto.
  - destruct (nr_read r n d) as [d1 [r1 y]] eqn:E. intros [= <- <- <-]. split; [discriminate|]. eapply nr_read_moves; eauto.
  - destruct (lv_read fuel l n d) as [d1 [r1 y]] eqn:E. intros [= <- <- <-]. destruct (lv_read_moves fuel l n d d1 r1 y Hn (Hl l eq_refl) E) as (H1 & H2).
    split; [intros l' [= <-]; auto|exact H2].
Qed.

(** [read_exact] *)
Lemma rs_read_exact_loop_length {S} (read : S -> Z -> dev -> dev * (S * res (list Z))) :
  (forall s n d d' s' bs, 0 <= n -> read s n d = (d', (s', Ok bs)) -> zlen bs <= n) ->
  forall fuel s n acc d d' s' bs, 0 <= n -> rs_read_exact_loop read fuel s n acc d = (d', (s', Ok bs)) -> zlen bs = zlen acc + n.
Proof.
  intros Hr. induction fuel as [|fuel IH]; intros s n acc d d' s' bs Hn H; cbn [rs_read_exact_loop] in H; destruct (n <=? 0) eqn:E;
    try discriminate; try (injection H as <- <- <-; lia).
  destruct (read s n d) as [d1 [s1 [[|x b]|e| |]]] eqn:Er; try discriminate.
  - apply Hr in Er; auto. apply IH in H; [|lia]. rewrite zlen_app in H. lia.
  - destruct e; try discriminate. destruct k; try discriminate. apply IH in H; auto.
Qed.
Lemma rs_read_exact_length {S} (read : S -> Z -> dev -> dev * (S * res (list Z))) s n d d' s' bs :
  rs_read_exact read s n d = (d', (s', Ok bs)) ->
  (forall s n d d' s' bs, 0 <= n -> read s n d = (d', (s', Ok bs)) -> zlen bs <= n) -> 0 <= n -> zlen bs = n.
Proof. intros H Hr Hn. unfold rs_read_exact in H. apply rs_read_exact_loop_length in H; auto. Qed.
Lemma av_read_at_most fuel v n d d' v' bs : 0 <= n -> av_read fuel v n d = (d', (v', Ok bs)) -> zlen bs <= n.
Proof.
  intros Hn. destruct v as [[r|r]|l]; cbn [av_read sv_read].
  - destruct (res_read r n d) as [d1 [r1 y]] eqn:E. intros [= <- <- ->]. apply res_read_moves in E as (_ & H); auto; apply H.
  - destruct (nr_read r n d) as [d1 [r1 y]] eqn:E. intros [= <- <- ->]. apply nr_read_moves in E as (_ & H); auto; apply H.
  - destruct (lv_read fuel l n d) as [d1 [r1 y]] eqn:E. intros [= <- <- ->]. unfold lv_read in E. apply stream_read_pos in E; [|reflexivity| |auto|cbn; lia].
    + destruct E as (_ & more & -> & L & _). exact L.
    + intros s d0 d1' s1 y E1. cbn in E1. destruct (lv_advance_pos _ _ _ _ _ E1) as (? & ? & _). auto.
Qed.

Lemma lv_new_size nt l inst ty size d d' v : lv_new nt l inst ty size d = (d', Ok v) ->
  ss_size (lv_ss v) = lv_len v /\ lv_len v = size /\ lv_stream_position v = 0.
Proof.
  unfold lv_new. destruct (lv_next_attribute _ d) as [d1 [v1 [b|e| |]]] eqn:E; try discriminate. intros [= <- <-].
  destruct (lv_next_attribute_pos _ _ _ _ _ E) as (H1 & H2 & H3). cbn in *. unfold lv_len, lv_stream_position. repeat split; congruence.
Qed.
