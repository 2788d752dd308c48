(** * Iteration over directories of which some nodes cannot be read. *)
From Verif Require Import Base Dev Types Record DataRuns Stream NonResident Resident Attribute File Structured AttrList Upcase Index
  Spec SpecMisc SpecValues SpecIndex SpecFaults SpecHoled BaseProofs ReaderProofs StructuredProofs NodeProofs IndexProofs DirectoryProofs IndexTotalProofs DirTotalProofs IndexClaims FaultProofs FaultSessionProofs.
From Coq Require Import Lia.

Scheme holed_ind2 := Induction for holed Sort Prop with subholed_ind2 := Induction for subholed Sort Prop.
Combined Scheme holed_mutind from holed_ind2, subholed_ind2.

Lemma errors_app {X} (a b : list (res X)) : errors (a ++ b) = (errors a + errors b)%nat.
Proof. unfold errors. now rewrite filter_app, app_length. Qed.
Lemma errors_seen l : errors (map seen l) = errors l.
Proof. unfold errors. induction l as [|[x|e| |] l IH]; cbn; auto. Qed.

Section PointsTo.
  Context (data : list Z) (Hb : bytes_ok data) (o : Z) (p : position) (Ho : 0 <= o).
  Lemma points_to_vcn vcn : sound_entry data o -> points_to data o vcn -> ie_subnode_vcn (mkIE (entry_bytes data o) p) = Some (Ok vcn).
  Proof.
    intros (Hf & Hl) (H & H24 & Hv). cbn zeta in Hv. unfold ie_subnode_vcn. rewrite ie_has_subnode_bytes by auto. replace (entry_len data o <? 13) with false by lia.
    rewrite H. rewrite ie_length_bytes by auto. replace (entry_len data o <? 10) with false by lia. replace (entry_len data o <? 8) with false by lia.
    replace (Z.max (entry_len data o - 8) 16) with (entry_len data o - 8) by lia. cbn [ie_slice].
    rewrite get_range_in by (rewrite ?entry_bytes_len by auto; lia). fold (field 8 (entry_bytes data o) (entry_len data o - 8)).
    rewrite entry_bytes_field by (auto; lia). replace (o + (entry_len data o - 8)) with (o + entry_len data o - 8) by lia.
    unfold to_i64. rewrite Hv. reflexivity.
  Qed.
End PointsTo.

Section Tree.
  Context (sub : Z -> M ranges) (good : dev -> Prop) (mu : dev -> nat) (child : Z -> list Z -> Prop) (hole : Z -> Prop) (lost : Z -> err -> Prop).
  Context (Hchild : forall vcn data, child vcn data -> bytes_ok data /\ 24 + field 4 data 28 <= zlen data)
    (Hsub : forall vcn data d, child vcn data -> good d -> exists d', good d' /\
       ((exists p, sub vcn d = (d', Ok (mkRanges data (24 + field 4 data 24) (24 + field 4 data 28) p)) /\ mu d' = mu d) \/
        exists x, sub vcn d = (d', Err x) /\ lost vcn x /\ S (mu d') = mu d))
    (Hhole : forall vcn d, hole vcn -> good d -> exists d' x, good d' /\ sub vcn d = (d', Err x) /\ lost vcn x /\ (mu d' <= mu d)%nat).

  Inductive hruns : nat -> ientries -> dev -> list (res ientry) -> ientries -> dev -> Prop :=
  | h_nil st d : hruns 0 st d [] st d
  | h_silent k st d st1 d1 es st' d' : (forall f, entries_loop sub (S f) st d = entries_loop sub f st1 d1) ->
      hruns k st1 d1 es st' d' -> hruns (S k) st d es st' d'
  | h_out k st d st1 d1 e es st' d' : (forall f, entries_loop sub (S f) st d = (d1, (st1, Some e))) ->
      hruns k st1 d1 es st' d' -> hruns (S k) st d (e :: es) st' d'.

  Lemma hruns_trans k1 k2 st d es1 st1 d1 es2 st2 d2 : hruns k1 st d es1 st1 d1 -> hruns k2 st1 d1 es2 st2 d2 -> hruns (k1 + k2) st d (es1 ++ es2) st2 d2.
  Proof. induction 1; intros H2; cbn; auto; [eapply h_silent; eauto|eapply h_out; eauto]. Qed.
  Lemma hruns_silent k st d st' d' : hruns k st d [] st' d' -> forall f, (k <= f)%nat -> entries_loop sub f st d = entries_loop sub (f - k) st' d'.
  Proof.
    intros H. remember [] as es eqn:He. induction H; intros f Hf; try discriminate.
    - now rewrite Nat.sub_0_r.
    - destruct f as [|f]; [lia|]. rewrite H. rewrite IHhruns by (auto; lia). reflexivity.
  Qed.
  Lemma hruns_first k st d e es st' d' : hruns k st d (e :: es) st' d' -> exists k2 st1 d1, (k2 < k)%nat /\ hruns k2 st1 d1 es st' d' /\
    forall f, (k <= f)%nat -> entries_loop sub f st d = (d1, (st1, Some e)).
  Proof.
    intros H. remember (e :: es) as l eqn:He. revert e es He. induction H; intros e0 es0 He; try discriminate.
    - destruct (IHhruns _ _ He) as (k2 & st2 & d2 & Hk & Hr & E). exists k2, st2, d2. split; [lia|]. split; auto.
      intros f Hf. destruct f as [|f]; [lia|]. rewrite H. apply E. lia.
    - injection He as <- <-. exists k, st1, d1. split; [lia|]. split; auto. intros f Hf. destruct f as [|f]; [lia|]. apply H.
  Qed.

  Definition paid (d d' : dev) (es : list (res ientry)) : Prop := (mu d' <= mu d)%nat /\ ((forall v, ~ hole v) -> (errors es + mu d')%nat = mu d).
  Lemma paid_nil d : paid d d [].
  Proof. split; auto. Qed.
  Lemma paid_trans d1 d2 d3 a b : paid d1 d2 a -> paid d2 d3 b -> paid d1 d3 (a ++ b).
  Proof. intros (A & A') (B & B'). split; [lia|]. intros H. specialize (A' H). specialize (B' H). rewrite errors_app. lia. Qed.

  (** One step at the entry at [o]. *)
  Section Step.
    Context (data : list Z) (stop : Z) (Hb : bytes_ok data) (Hs : stop <= zlen data) (o : Z) (Ho : 0 <= o) (Hlt : o < stop) (He : sound_entry data o).
    Let last := entry_is_last data o.
    Definition after (p : position) : ranges := if last then mkRanges data (zlen data) stop p else mkRanges data (o + entry_len data o) stop (pos_add p (entry_len data o)).
    Lemma after_data p : rg_data (after p) = data.
    Proof. unfold after. now destruct last. Qed.
    Lemma after_last p : last = true -> rg_end (after p) <= rg_start (after p).
    Proof. unfold after. intros ->. cbn. lia. Qed.
    Lemma step_down p below fs d vcn d1 sg : points_to data o vcn -> sub vcn d = (d1, Ok sg) -> forall f,
      entries_loop sub (S f) (mkIEs (mkRanges data o stop p :: below) fs) d =
      entries_loop sub f (mkIEs (sg :: after p :: below) ((if last then None else Some (mkER o (o + entry_len data o) p)) :: fs)) d1.
    Proof.
      intros Hp Es f. pose proof He as (Hf & Hl). destruct (ranges_next_spec data Hb stop Hs o p Ho) as (_ & _ & _ & Hn). specialize (Hn Hlt Hf ltac:(lia)).
      fold last in Hn. fold (after p) in Hn. cbn [entries_loop es_iters es_following]. rewrite Hn, after_data.
      rewrite (er_to_entry_ok data o p Ho Hf Hl). cbn [rbind]. rewrite (entry_last_ok data Hb o p Ho Hf Hl). cbn [rbind]. fold last.
      rewrite (points_to_vcn data Hb o p Ho vcn He Hp), Es. reflexivity.
    Qed.
    Lemma step_lost p below fs d vcn d1 x : points_to data o vcn -> sub vcn d = (d1, Err x) -> forall f,
      entries_loop sub (S f) (mkIEs (mkRanges data o stop p :: below) fs) d = (d1, (mkIEs (after p :: below) fs, Some (Err x))).
    Proof.
      intros Hp Es f. pose proof He as (Hf & Hl). destruct (ranges_next_spec data Hb stop Hs o p Ho) as (_ & _ & _ & Hn). specialize (Hn Hlt Hf ltac:(lia)).
      fold last in Hn. fold (after p) in Hn. cbn [entries_loop es_iters es_following]. rewrite Hn, after_data.
      rewrite (er_to_entry_ok data o p Ho Hf Hl). cbn [rbind]. rewrite (entry_last_ok data Hb o p Ho Hf Hl). cbn [rbind].
      rewrite (points_to_vcn data Hb o p Ho vcn He Hp), Es. reflexivity.
    Qed.
    Lemma step_plain p below fs d : entry_has_subnode data o = false -> forall f,
      entries_loop sub (S f) (mkIEs (mkRanges data o stop p :: below) fs) d =
      if last then entries_loop sub f (mkIEs (after p :: below) fs) d else (d, (mkIEs (after p :: below) fs, Some (Ok (mkIE (entry_bytes data o) p)))).
    Proof.
      intros Hns f. pose proof He as (Hf & Hl). destruct (ranges_next_spec data Hb stop Hs o p Ho) as (_ & _ & _ & Hn). specialize (Hn Hlt Hf ltac:(lia)).
      fold last in Hn. fold (after p) in Hn. cbn [entries_loop es_iters es_following]. rewrite Hn, after_data.
      rewrite (er_to_entry_ok data o p Ho Hf Hl). cbn [rbind]. rewrite (entry_last_ok data Hb o p Ho Hf Hl). cbn [rbind]. fold last.
      rewrite (entry_subnode_none data Hb o p Ho Hf Hl Hns). destruct last eqn:El; [reflexivity|]. unfold entries_yield. cbn [es_iters].
      rewrite after_data, (er_to_entry_ok data o p Ho Hf Hl). reflexivity.
    Qed.
    Lemma step_up p g2 below fs d : rg_end g2 <= rg_start g2 -> forall f,
      entries_loop sub (S f) (mkIEs (g2 :: after p :: below) ((if last then None else Some (mkER o (o + entry_len data o) p)) :: fs)) d =
      if last then entries_loop sub f (mkIEs (after p :: below) fs) d else (d, (mkIEs (after p :: below) fs, Some (Ok (mkIE (entry_bytes data o) p)))).
    Proof.
      intros Hex f. cbn [entries_loop es_iters es_following]. unfold ranges_next. replace (rg_end g2 <=? rg_start g2) with true by lia.
      destruct last eqn:El; [reflexivity|]. unfold entries_yield. cbn [es_iters]. rewrite after_data. destruct He as (Hf & Hl).
      rewrite (er_to_entry_ok data o p Ho Hf Hl). reflexivity.
    Qed.
  End Step.

  Definition lists (st : ranges) (out : list (res (list Z)) -> Prop) : Prop := forall below fs d, good d ->
    exists es k d' g', out (map seen es) /\ good d' /\ rg_end g' <= rg_start g' /\ paid d d' es /\ hruns k (mkIEs (st :: below) fs) d es (mkIEs (g' :: below) fs) d'.

  Let shape := fun (v : Z) (_ : err) => hole v.

  Lemma holed_runs :
    (forall data stop o l, holed child shape data stop o l -> bytes_ok data -> stop <= zlen data -> 0 <= o ->
       forall p, lists (mkRanges data o stop p) (holed child lost data stop o)) /\
    (forall data o l, subholed child shape data o l -> entry_has_subnode data o = false \/
       exists vcn data', points_to data o vcn /\ child vcn data' /\
         forall p, lists (mkRanges data' (24 + field 4 data' 24) (24 + field 4 data' 28) p) (holed child lost data' (24 + field 4 data' 28) (24 + field 4 data' 24))).
  Proof.
    apply holed_mutind.
    - intros data stop o Hle Hb Hs Ho p below fs d Hg. exists [], 0%nat, d, (mkRanges data o stop p). cbn [map]. split; [now constructor|]. split; auto. split; [exact Hle|].
      split; [apply paid_nil|constructor].
    - (* last *)
      intros data stop o l Hlt He Hlast _ IH Hb Hs Ho p below fs d Hg. destruct IH as [Hns|(vcn & data' & Hp & Hc & IH)].
      + exists [], 1%nat, d, (after data stop o p). split; [cbn [map]; eapply ho_last; eauto; now constructor|]. split; auto. split; [now apply after_last|]. split; [apply paid_nil|].
        eapply h_silent; [|constructor]. intros f. rewrite step_plain by auto. now rewrite Hlast.
      + destruct (Hsub vcn data' d Hc Hg) as (d1 & Hg1 & [(q & Es & Hm)|(x & Es & Hx & Hm)]).
        * destruct (IH q (after data stop o p :: below) (None :: fs) d1 Hg1) as (es & k & d2 & g2 & Hes & Hg2 & Hex & Hpd & Hr).
          exists es, (1 + (k + 1))%nat, d2, (after data stop o p). split; [eapply ho_last; eauto; econstructor; eauto|]. split; auto. split; [now apply after_last|].
          split; [unfold paid in *; rewrite <- Hm; exact Hpd|]. cbn [Nat.add]. eapply h_silent.
          -- intros f. rewrite (step_down data stop Hb Hs o Ho Hlt He p below fs d vcn d1 _ Hp Es). rewrite Hlast. reflexivity.
          -- rewrite <- (app_nil_r es). eapply hruns_trans; [exact Hr|]. eapply h_silent; [|constructor]. intros f.
             pose proof (step_up data stop o Ho He p g2 below fs d2 Hex f) as S1. rewrite Hlast in S1. exact S1.
        * exists [Err x], 1%nat, d1, (after data stop o p). split; [cbn [map seen]; eapply ho_last_lost; eauto|]. split; auto. split; [now apply after_last|].
          split; [split; [lia|intros _; cbn; lia]|]. eapply h_out; [|constructor]. intros f. now apply step_lost with vcn.
    - (* entry *)
      intros data stop o l1 l2 Hlt He Hlast _ IH1 _ IH2 Hb Hs Ho p below fs d Hg.
      assert (Haft : after data stop o p = mkRanges data (o + entry_len data o) stop (pos_add p (entry_len data o))) by (unfold after; now rewrite Hlast).
      pose proof He as (Hf & Hl).
      assert (Hfirst : exists es k d1, good d1 /\ paid d d1 es /\ hruns k (mkIEs (mkRanges data o stop p :: below) fs) d es (mkIEs (after data stop o p :: below) fs) d1 /\
        forall l2', holed child lost data stop (o + entry_len data o) l2' -> holed child lost data stop o (map seen es ++ l2')).
      { destruct IH1 as [Hns|(vcn & data' & Hp & Hc & IH)].
        - exists [Ok (mkIE (entry_bytes data o) p)], 1%nat, d. split; auto. split; [split; auto|]. split.
          + eapply h_out; [|constructor]. intros f. rewrite step_plain by auto. now rewrite Hlast.
          + intros l2' H2. cbn [map seen ie_slice app]. apply (ho_entry child lost data stop o []); auto. now constructor.
        - destruct (Hsub vcn data' d Hc Hg) as (d1 & Hg1 & [(q & Es & Hm)|(x & Es & Hx & Hm)]).
          + destruct (IH q (after data stop o p :: below) (Some (mkER o (o + entry_len data o) p) :: fs) d1 Hg1) as (es & k & d2 & g2 & Hes & Hg2 & Hex & Hpd & Hr).
            exists (es ++ [Ok (mkIE (entry_bytes data o) p)]), (1 + (k + 1))%nat, d2. split; auto. split.
            { apply paid_trans with d2; [unfold paid in *; rewrite <- Hm; exact Hpd|split; auto]. }
            split.
            * cbn [Nat.add]. eapply h_silent.
              -- intros f. rewrite (step_down data stop Hb Hs o Ho Hlt He p below fs d vcn d1 _ Hp Es). rewrite Hlast. reflexivity.
              -- eapply hruns_trans; [exact Hr|]. eapply h_out; [|constructor]. intros f.
                 pose proof (step_up data stop o Ho He p g2 below fs d2 Hex f) as S1. rewrite Hlast in S1. exact S1.
            * intros l2' H2. rewrite map_app, <- app_assoc. cbn [map seen ie_slice app]. apply ho_entry; auto. econstructor; eauto.
          + exists [Err x], 1%nat, d1. split; auto. split; [split; [lia|intros _; cbn; lia]|]. split.
            * eapply h_out; [|constructor]. intros f. now apply step_lost with vcn.
            * intros l2' H2. cbn [map seen app]. eapply ho_entry_lost; eauto. }
      destruct Hfirst as (es1 & k1 & d1 & Hg1 & Hp1 & Hr1 & Hl1). rewrite Haft in Hr1.
      destruct (IH2 Hb Hs ltac:(lia) (pos_add p (entry_len data o)) below fs d1 Hg1) as (es2 & k2 & d2 & g2 & He2 & Hg2 & Hex2 & Hp2 & Hr2).
      exists (es1 ++ es2), (k1 + k2)%nat, d2, g2. split; [rewrite map_app; apply Hl1, He2|]. split; auto. split; auto. split; [eapply paid_trans; eauto|]. eapply hruns_trans; eauto.
    - (* last, lost *)
      intros data stop o vcn x0 Hlt He Hlast Hp Hh Hb Hs Ho p below fs d Hg. destruct (Hhole vcn d Hh Hg) as (d1 & x & Hg1 & Es & Hx & Hm).
      exists [Err x], 1%nat, d1, (after data stop o p). split; [cbn [map seen]; eapply ho_last_lost; eauto|]. split; auto. split; [now apply after_last|].
      split; [split; [lia|intros Hno; now destruct (Hno vcn)]|]. eapply h_out; [|constructor]. intros f. now apply step_lost with vcn.
    - intros data stop o vcn x0 l2 Hlt He Hlast Hp Hh _ IH2 Hb Hs Ho p below fs d Hg. destruct (Hhole vcn d Hh Hg) as (d1 & x & Hg1 & Es & Hx & Hm).
      assert (Haft : after data stop o p = mkRanges data (o + entry_len data o) stop (pos_add p (entry_len data o))) by (unfold after; now rewrite Hlast).
      pose proof He as (Hf & Hl).
      destruct (IH2 Hb Hs ltac:(lia) (pos_add p (entry_len data o)) below fs d1 Hg1) as (es2 & k2 & d2 & g2 & He2 & Hg2 & Hex2 & Hp2 & Hr2).
      exists (Err x :: es2), (S k2), d2, g2. split; [cbn [map seen]; eapply ho_entry_lost; eauto|]. split; auto. split; auto.
      split; [destruct Hp2; split; [lia|intros Hno; now destruct (Hno vcn)]|]. rewrite <- Haft in Hr2. eapply h_out; [|exact Hr2]. intros f. now apply step_lost with vcn.
    - intros data o H. now left.
    - intros data o vcn data' l Hp Hc _ IH. right. exists vcn, data'. split; auto. split; auto. destruct (Hchild _ _ Hc) as (Hb & Hs).
      intros. apply IH; auto. pose proof (field4_bound data' 24 Hb). lia.
  Qed.

  Lemma traverse_hruns f : forall es k st d g d', hruns k st d es (mkIEs [g] []) d' -> rg_end g <= rg_start g -> (k < f)%nat ->
    forall n, iterate (with_dev (entries_loop sub f)) (length es + n) (st, d) = map Some es ++ repeat None n.
  Proof.
    induction es as [|e es IH]; intros k st d g d' Hr Hex Hk n.
    - cbn [length Nat.add map app]. destruct n as [|n]; [reflexivity|]. cbn [iterate repeat]. unfold with_dev at 1. cbn [fst snd].
      rewrite (hruns_silent _ _ _ _ _ Hr f ltac:(lia)). destruct (f - k)%nat as [|j] eqn:Ej; [lia|]. cbn [entries_loop es_iters es_following].
      unfold ranges_next at 1. replace (rg_end g <=? rg_start g) with true by lia. f_equal. apply iterate_fixed.
      unfold with_dev. cbn [fst snd]. destruct f as [|f]; [lia|]. reflexivity.
    - destruct (hruns_first _ _ _ _ _ _ _ Hr) as (k2 & st1 & d1 & Hk2 & Hr2 & E). cbn [length Nat.add iterate map app]. unfold with_dev at 1. cbn [fst snd].
      rewrite (E f ltac:(lia)). f_equal. eapply IH; eauto. lia.
  Qed.

  Lemma holed_traverse data stop o l p d : holed child shape data stop o l -> bytes_ok data -> stop <= zlen data -> 0 <= o -> good d ->
    exists es N, holed child lost data stop o (map seen es) /\ ((forall v, ~ hole v) -> (errors es <= mu d)%nat) /\ forall f n, (N <= f)%nat ->
      iterate (with_dev (entries_loop sub f)) (length es + n) (mkIEs [mkRanges data o stop p] [], d) = map Some es ++ repeat None n.
  Proof.
    intros H Hb Hs Ho Hg. destruct (proj1 holed_runs data stop o l H Hb Hs Ho p [] [] d Hg) as (es & k & d' & g' & Hes & Hg' & Hex & (_ & Hp) & Hr).
    exists es, (S k). split; auto. split; [intros Hn; specialize (Hp Hn); lia|]. intros f n Hf. eapply traverse_hruns; eauto.
  Qed.
End Tree.

(** ** Listings and their holes *)
Lemma listing_shape child lost : (forall data stop o l, listing child data stop o l -> holed child lost data stop o (map Ok l)) /\
  (forall data o l, sublisting child data o l -> subholed child lost data o (map Ok l)).
Proof.
  apply (listing_mutind child (fun data stop o l _ => holed child lost data stop o (map Ok l)) (fun data o l _ => subholed child lost data o (map Ok l))).
  - intros. now constructor.
  - intros data stop o l H Hf Hl Hlast _ IH. apply ho_last; auto. now split.
  - intros data stop o l1 l2 H Hf Hl Hlast _ IH1 _ IH2. rewrite map_app. cbn [map]. apply ho_entry; auto. now split.
  - intros. now constructor.
  - intros data o vcn data' l Hh H24 Ev Hi Hc _ IH. apply sh_node with vcn data'; auto. split; auto. split; auto. cbn zeta. rewrite <- Ev. now replace (vcn <=? I64_MAX) with true by lia.
Qed.

Lemma gapped_app {X} (a : list X) ra b rb : gapped a ra -> gapped b rb -> gapped (a ++ b) (ra ++ rb).
Proof. induction 1; intros Hb; cbn; auto; [apply ga_item; auto|]. rewrite <- app_assoc. apply ga_gap. auto. Qed.

Lemma holed_gapped (child : Z -> list Z -> Prop) lost : (forall v d1 d2, child v d1 -> child v d2 -> d1 = d2) ->
  (forall data stop o l, listing child data stop o l -> forall r, holed child lost data stop o r -> gapped l r) /\
  (forall data o l, sublisting child data o l -> forall r, subholed child lost data o r -> gapped l r).
Proof.
  intros Hc.
  apply (listing_mutind child (fun data stop o l _ => forall r, holed child lost data stop o r -> gapped l r) (fun data o l _ => forall r, subholed child lost data o r -> gapped l r)).
  - intros data stop o Ho r H. inversion H; subst; try lia. constructor.
  - intros data stop o l Hlt Hf Hl Hlast _ IH r H. inversion H; subst; try lia; try congruence; auto. rewrite <- (app_nil_r l). apply ga_gap. constructor.
  - intros data stop o l1 l2 Hlt Hf Hl Hlast _ IH1 _ IH2 r H. inversion H; subst; try lia; try congruence.
    + apply gapped_app; auto. apply ga_item. auto.
    + change (l1 ++ entry_bytes data o :: l2) with (l1 ++ [entry_bytes data o] ++ l2). rewrite app_assoc. apply ga_gap. auto.
  - intros data o Hn r H. inversion H; subst; [constructor|]. match goal with P : points_to _ _ _ |- _ => destruct P; congruence end.
  - intros data o vcn data' l Hh H24 Ev Hi Hch _ IH r H. inversion H; subst; [congruence|].
    match goal with P : points_to _ _ _ |- _ => rename P into Pt end. destruct Pt as (_ & _ & Pt). cbn zeta in Pt. rewrite (proj2 (Z.leb_le _ _) Hi) in Pt. subst.
    match goal with H1 : child _ data', H2 : child _ ?x |- _ => pose proof (Hc _ _ _ H1 H2); subst end. auto.
Qed.

(** ** Directories *)

Section Directory.
  Context (nt : ntfs) (img : list Z) (f : file) (offs : list Z) (clean : bool) (root alloc : list Z).
  Context (Hib : bytes_ok img) (Hb : bytes_ok (f_data f)) (Hl : 24 <= zlen (f_data f))
    (W : attr_walk (f_data f) (field 2 (f_data f) 20) offs clean) (Hcs : 1 <= cluster_size nt)
    (D : is_directory (cluster_size nt) img (f_data f) offs root alloc).
  Let child := index_child (cluster_size nt) root alloc.
  Context (d0 : dev) (Hd0 : d_img d0 = img) (Hint : ~ reports d0 Interrupted).
  Let gd := fun d => d_img d = img /\ forall k, reports d k -> reports d0 k.

  Lemma subnode_honest ix fuel vcn d : gd d -> honest_call d (index_subnode fuel nt ix vcn).
  Proof. intros (_ & Hr). apply sim_call. eapply index_subnode_sim; eauto with calm. Qed.

  Lemma child_faults ix vcn data d : dir_ix nt img f root alloc ix -> child vcn data -> gd d -> exists d', gd d' /\
    ((exists p, index_subnode 0 nt ix vcn d = (d', Ok (mkRanges data (24 + field 4 data 24) (24 + field 4 data 28) p)) /\ faults d' = faults d) \/
     exists x, index_subnode 0 nt ix vcn d = (d', Err x) /\ device_lost d0 vcn x /\ S (faults d') = faults d).
  Proof.
    intros Hix Hc Hg. pose proof (subnode_honest ix 0 vcn d Hg) as H. unfold honest_call, honest in H.
    destruct (dir_subnode nt img f offs clean root alloc Hib Hb Hl W Hcs D ix 0 vcn data (without_faults d) Hix Hc) as (e1 & p & E & _).
    { split; [exact (proj1 Hg)|intros _; apply without_faultless]. }
    rewrite E in H. destruct (index_subnode 0 nt ix vcn d) as [d1 b]. destruct H as (Hi & Hr & H). exists d1. split.
    { destruct Hg as (G1 & G2). split; [congruence|auto]. }
    destruct H as [(-> & _ & Hf)|((k & Hk & ->) & Hf)].
    - left. eauto.
    - right. exists (EIo k). split; auto. split; auto. exists k. split; auto. apply Hg, Hk.
  Qed.
  Context (Hclear : arrays_clear (cluster_size nt) (root_record_size root) alloc) (Hsz : sizes_small (cluster_size nt) (root_record_size root) alloc).
  Lemma hole_faults ix vcn d : dir_ix nt img f root alloc ix -> (forall data, ~ child vcn data) -> gd d -> exists d' x, gd d' /\
    index_subnode 0 nt ix vcn d = (d', Err x) /\ (faults d' <= faults d)%nat.
  Proof.
    intros Hix Hc Hg. pose proof (subnode_honest ix 0 vcn d Hg) as H. unfold honest_call, honest in H.
    destruct (dir_sub_total nt img f offs root alloc Hib Hb Hl Hcs D Hclear false (fun _ => Hsz) ix vcn (without_faults d) Hix) as (e1 & r & E & _ & Hfine & Hok).
    { split; [exact (proj1 Hg)|intros _; apply without_faultless]. }
    rewrite E in H. destruct (index_subnode 0 nt ix vcn d) as [d1 b]. destruct H as (Hi & Hr & H).
    assert (Hg1 : gd d1) by (destruct Hg as (G1 & G2); split; [congruence|auto]).
    destruct H as [(-> & _ & Hf)|((k & Hk & ->) & Hf)].
    - destruct r as [g|x| |]; [|exists d1, x; split; auto; split; auto; lia|cbn in Hfine; discriminate|destruct Hfine].
      destruct (Hok g eq_refl) as (_ & data & _ & Hch & _). now destruct (Hc data).
    - exists d1, (EIo k). split; auto. split; auto. lia.
  Qed.

  Lemma directory_holes ix l d : dir_ix nt img f root alloc ix -> gd d ->
    holed child (fun v _ => damaged child v) (root_entries root) (zlen (root_entries root)) 0 l ->
    exists es N, holed child (fun v x => device_lost d0 v x \/ damaged child v) (root_entries root) (zlen (root_entries root)) 0 (map seen es) /\
      forall k n, (N <= k)%nat -> iterate (with_dev (entries_next k nt ix)) (length es + n) (index_entries ix, d) = map Some es ++ repeat None n.
  Proof.
    intros Hix Hg Hh. pose proof Hix as (q & Hroot & _). unfold index_entries. rewrite Hroot.
    assert (Hrb : bytes_ok (root_entries root)) by (apply bytes_ok_slice; eapply root_bytes_ok; eauto).
    destruct (holed_traverse (index_subnode 0 nt ix) gd faults child (damaged child) (fun v x => device_lost d0 v x \/ damaged child v)) with
      (data := root_entries root) (stop := zlen (root_entries root)) (o := 0) (l := l) (p := q) (d := d) as (es & N & H1 & _ & H2); auto; try lia.
    - intros vcn data Hc. exact (dir_child_ok nt img f offs root alloc Hib D vcn data Hc).
    - intros vcn data d1 Hc Hg1. destruct (child_faults ix vcn data d1 Hix Hc Hg1) as (d2 & Hg2 & [H|(x & Hx & Hx1 & Hx2)]); exists d2; split; auto.
      right. exists x. auto.
    - intros vcn d1 Hc Hg1. destruct (hole_faults ix vcn d1 Hix Hc Hg1) as (d2 & x & Hg2 & Hx & Hm). exists d2, x. auto.
    - exists es, N. split; auto. intros k n Hk. rewrite <- (H2 k n Hk). apply iterate_ext. intros [st d1]. unfold with_dev. cbn [fst snd]. unfold entries_next.
      rewrite (entries_loop_ext (index_subnode k nt ix) (index_subnode 0 nt ix)); auto. intros. eapply subnode_fuel; eauto.
  Qed.
End Directory.

Lemma directory_gaps nt img f offs clean root alloc l fuel d : bytes_ok img -> bytes_ok (f_data f) -> 24 <= zlen (f_data f) ->
  attr_walk (f_data f) (field 2 (f_data f) 20) offs clean -> no_attribute_list (f_data f) offs -> 1 <= cluster_size nt ->
  is_directory (cluster_size nt) img (f_data f) offs root alloc -> index_listing (cluster_size nt) root alloc l ->
  (length offs < fuel)%nat -> d_img d = img -> ~ reports d Interrupted ->
  exists ix, directory_index fuel nt f d = (d, Ok ix) /\
  exists es N, (errors es <= faults d)%nat /\ gapped l (map seen es) /\
    holed (index_child (cluster_size nt) root alloc) (device_lost d) (root_entries root) (zlen (root_entries root)) 0 (map seen es) /\
    forall k n, (N <= k)%nat -> iterate (with_dev (entries_next k nt ix)) (length es + n) (index_entries ix, d) = map Some es ++ repeat None n.
Proof.
  intros Hib Hb Hl W Hno Hcs D L Hfu Hd Hint.
  destruct (directory_index_ok nt img f offs clean root alloc Hb Hl W Hno D fuel d Hfu) as (ix & E & Hix). exists ix. split; auto.
  pose proof Hix as (q & Hroot & _). unfold index_entries. rewrite Hroot. set (child := index_child (cluster_size nt) root alloc).
  assert (Hrb : bytes_ok (root_entries root)) by (apply bytes_ok_slice; eapply root_bytes_ok; eauto).
  assert (Hfun : forall v d1 d2, child v d1 -> child v d2 -> d1 = d2).
  { intros v d1 d2. apply index_child_fun. exact (alloc_bytes_ok nt img f offs root alloc Hib D). }
  destruct (holed_traverse (index_subnode 0 nt ix) (fun e => d_img e = img /\ forall k, reports e k -> reports d k) faults child (fun _ => False) (device_lost d)) with
    (data := root_entries root) (stop := zlen (root_entries root)) (o := 0) (l := map Ok l) (p := q) (d := d) as (es & N & H1 & H2 & H3); auto; try lia.
  - intros vcn data Hc. exact (dir_child_ok nt img f offs root alloc Hib D vcn data Hc).
  - intros vcn data d1 Hc Hg1. exact (child_faults nt img f offs clean root alloc Hib Hb Hl W Hcs D d Hint ix vcn data d1 Hix Hc Hg1).
  - apply listing_shape. exact L.
  - exists es, N. split; [apply H2; auto|]. split.
    { eapply (proj1 (holed_gapped child (device_lost d) Hfun)); eauto. }
    split; auto. intros k n Hk. rewrite <- (H3 k n Hk). apply iterate_ext. intros [st d1]. unfold with_dev. cbn [fst snd]. unfold entries_next.
    rewrite (entries_loop_ext (index_subnode k nt ix) (index_subnode 0 nt ix)); auto. intros. eapply subnode_fuel; eauto.
Qed.
Lemma directory_damaged nt img f offs clean root alloc l fuel d : bytes_ok img -> bytes_ok (f_data f) -> 24 <= zlen (f_data f) ->
  attr_walk (f_data f) (field 2 (f_data f) 20) offs clean -> no_attribute_list (f_data f) offs -> 1 <= cluster_size nt ->
  is_directory (cluster_size nt) img (f_data f) offs root alloc ->
  arrays_clear (cluster_size nt) (root_record_size root) alloc -> sizes_small (cluster_size nt) (root_record_size root) alloc ->
  let child := index_child (cluster_size nt) root alloc in
  holed child (fun v _ => damaged child v) (root_entries root) (zlen (root_entries root)) 0 l ->
  (length offs < fuel)%nat -> d_img d = img -> ~ reports d Interrupted ->
  exists ix, directory_index fuel nt f d = (d, Ok ix) /\
  exists es N, holed child (fun v x => device_lost d v x \/ damaged child v) (root_entries root) (zlen (root_entries root)) 0 (map seen es) /\
    forall k n, (N <= k)%nat -> iterate (with_dev (entries_next k nt ix)) (length es + n) (index_entries ix, d) = map Some es ++ repeat None n.
Proof.
  intros Hib Hb Hl W Hno Hcs D Hcl Hsz child Hh Hfu Hd Hint.
  destruct (directory_index_ok nt img f offs clean root alloc Hb Hl W Hno D fuel d Hfu) as (ix & E & Hix). exists ix. split; auto.
  apply (directory_holes nt img f offs clean root alloc Hib Hb Hl W Hcs D d Hint Hcl Hsz ix l d Hix); auto.
Qed.
