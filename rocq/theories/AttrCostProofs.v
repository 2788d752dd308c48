(** * C78: looking at the attributes of a file record does not touch the device. *)
From Coq Require Import Lia.
From Verif Require Import Base Dev Types Record DataRuns Stream NonResident Resident Attribute File Structured AttrList Upcase
  Spec SpecValues BaseProofs AttributeProofs FileProofs AttrListProofs.

Section Still.
  Context (f : file) (nt : ntfs) (offs : list Z) (clean : bool) (Hb : bytes_ok (f_data f)) (Hl : 24 <= zlen (f_data f))
    (W : attr_walk (f_data f) (field 2 (f_data f) 20) offs clean) (Hno : no_attribute_list (f_data f) offs).

  Definition inside (st : attrs) : Prop := exists off l b, st = mkAttrs f off None None /\ 0 <= off /\ attr_walk (f_data f) off l b /\ no_attribute_list (f_data f) l.

  Lemma inside_start : inside (mkAttrs f (field 2 (f_data f) 20) None None).
  Proof. exists (field 2 (f_data f) 20), offs, clean. split; [reflexivity|]. split; [now apply field_nonneg|]. auto. Qed.

  Lemma inside_next k st d : inside st -> exists st' x, attrs_next k nt st d = (d, (st', x)) /\ inside st'.
  Proof.
    intros (off & l & b & -> & Ho & Wk & Hn). destruct k as [|k].
    { exists (mkAttrs f off None None), (Some OutOfFuel). split; [reflexivity|]. exists off, l, b. auto. }
    rewrite (attrs_next_raw f nt k off d off l b Wk Ho eq_refl Hn). eexists _, _. split; [reflexivity|].
    destruct (raw_next_spec f off Ho) as (S1 & S2 & S3 & S4).
    assert (Hstay : fst (raw_next f off) = off -> inside (mkAttrs f (fst (raw_next f off)) None None)) by (intros ->; exists off, l, b; auto).
    inversion Wk as [? H|? H1 H2|? H1 H2 H3|? l' ? H1 H2 W']; subst.
    - apply Hstay. now rewrite S1.
    - apply Hstay. now rewrite S2.
    - apply Hstay. destruct (S3 H1 H2 H3) as (x & ->). reflexivity.
    - rewrite (S4 H1 H2). cbn [fst]. exists (off + attr_len_at (f_data f) off), l', b. split; [reflexivity|]. split; [|split; [exact W'|now inversion Hn]].
      destruct H2 as (? & ? & ?). lia.
  Qed.

  Lemma inside_search {A} (accept : attr_item -> attribute -> M (option A)) : (forall i a d, fst (accept i a d) = d) ->
    forall fuel st d, inside st -> fst (attrs_search fuel nt accept st d) = d.
  Proof.
    intros Ha. induction fuel as [|k IH]; intros st d Hi; [reflexivity|]. cbn [attrs_search].
    destruct (inside_next (S k) st d Hi) as (st' & x & -> & Hi'). destruct x as [[i|y| |]|]; try reflexivity.
    destruct (item_to_attribute i) as [a|y| |]; try reflexivity. pose proof (Ha i a d) as H.
    destruct (accept i a d) as [d2 [[y|]|y| |]]; cbn [fst] in *; subst d2; auto.
  Qed.

  Lemma still_attributes fuel d :
    (forall st, attrs_start f = Ok st -> forall n, snd (Nat.iter n (fun s => fst (with_dev (attrs_next fuel nt) s)) (st, d)) = d) /\
    (forall ty name, fst (find_attribute fuel nt f ty name d) = d) /\ forall stream, fst (file_data fuel nt f stream d) = d.
  Proof.
    pose proof (attrs_start_eq f ltac:(lia)) as Es. splits.
    - intros st E n. rewrite Es in E. injection E as <-.
      assert (H : inside (fst (Nat.iter n (fun s => fst (with_dev (attrs_next fuel nt) s)) (mkAttrs f (field 2 (f_data f) 20) None None, d))) /\
                  snd (Nat.iter n (fun s => fst (with_dev (attrs_next fuel nt) s)) (mkAttrs f (field 2 (f_data f) 20) None None, d)) = d); [|apply H].
      induction n as [|n IH]; [split; [exact inside_start|reflexivity]|].
      match goal with |- context [Nat.iter (S n) ?g ?x] => change (Nat.iter (S n) g x) with (g (Nat.iter n g x)) end.
      destruct (Nat.iter n _ _) as [s1 d1]. cbn [fst snd] in *. destruct IH as (I1 & ->).
      destruct (inside_next fuel s1 d I1) as (s2 & x & E & I2). unfold with_dev. cbn [fst snd]. rewrite E. auto.
    - intros ty name. unfold find_attribute. unfold mbind at 1, mlift at 1. rewrite Es. unfold mbind at 1.
      match goal with |- context [attrs_search fuel nt ?acc ?st d] => pose proof (inside_search acc (fun i a d => eq_refl) fuel st d inside_start) as H; destruct (attrs_search fuel nt acc st d) as [d1 [x|x| |]] end; exact H.
    - intros stream. unfold file_data. unfold mbind at 1, mlift at 1. rewrite Es. apply inside_search; [reflexivity|exact inside_start].
  Qed.
End Still.
