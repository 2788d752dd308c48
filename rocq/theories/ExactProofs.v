(** * Proofs for C48: [read_exact] over an arbitrary conforming reader. *)
From Verif Require Import Base Dev Types DataRuns Stream Spec SpecMisc BaseProofs DevProofs.

Section Exact.
  Context {S} (read : S -> Z -> dev -> dev * (S * res (list Z))) (I : S -> dev -> Prop) (posf : S -> dev -> Z)
    (left : S -> dev -> nat) (content : list Z) (C : conforming read I posf left content).

  Lemma read_exact_conforming_acc fuel : forall s d n acc, I s d -> 0 <= posf s d -> 0 <= n -> (Z.to_nat n + left s d < fuel)%nat ->
    exists d' s' r, rs_read_exact_loop read fuel s n acc d = (d', (s', r)) /\
      ((r = Ok (acc ++ slice content (posf s d) (posf s d + n)) /\ (0 < n -> posf s d + n <= zlen content) /\ posf s' d' = posf s d + n /\ I s' d') \/
       (r = Err (EIo UnexpectedEof) /\ zlen content < posf s d + n /\ 0 < n) \/
       (exists e, r = Err e /\ e <> EIo Interrupted /\ exists s1 d1 n1, I s1 d1 /\ 0 < n1 <= n /\ snd (snd (read s1 n1 d1)) = Err e)).
  Proof.
    induction fuel as [|fuel IH]; intros s d n acc Hi Hp Hn Hf; [lia|]. cbn [rs_read_exact_loop].
    destruct (n <=? 0) eqn:En; [exists d, s, (Ok acc); split; auto; left; assert (n = 0) by lia; subst n; rewrite Z.add_0_r; repeat split; auto|].
    { unfold slice. rewrite ztake_0 by lia. now rewrite app_nil_r. } { lia. }
    destruct (C s d n Hi) as (d1 & s1 & r & E & Hi1 & Hr); [lia|]. rewrite E.
    destruct Hr as [(bs & -> & Hlen & Hbs & Hne & Hpos & Hleft)|[(-> & Hpos & Hleft)|(e & -> & He)]].
    - destruct bs as [|b t]; [exists d1, s1, (Err (EIo UnexpectedEof)); split; auto; right; left; split; auto; split; [|lia]|].
      { destruct (Z.lt_ge_cases (posf s d) (zlen content)) as [K|K]; [now apply Hne in K|lia]. }
      set (bs := b :: t) in *. assert (0 < zlen bs) by (unfold bs; rewrite zlen_cons; pose proof (zlen_nonneg t); lia).
      assert (Hb : zlen bs <= zlen content - posf s d).
      { assert (K := f_equal zlen Hbs). rewrite zlen_ztake, zlen_zdrop in K. lia. }
      destruct (IH s1 d1 (n - zlen bs) (acc ++ bs) Hi1) as (d' & s' & r & E' & Hr); [lia|lia|lia|]. exists d', s', r. split; [exact E'|].
      rewrite Hpos in Hr. destruct Hr as [(-> & K & Kp & Ki)|[(-> & K & _)|(e & -> & He & s2 & d2 & n2 & K1 & K2 & K3)]].
      + left. split; [|split; [|split]]; auto; try lia. rewrite <- app_assoc. do 2 f_equal. unfold slice.
        replace (posf s d + n - posf s d) with (zlen bs + (n - zlen bs)) by lia. rewrite ztake_split by lia.
        rewrite zdrop_zdrop by lia. rewrite <- Hbs. f_equal. f_equal; [lia|f_equal; lia].
      + right; left. split; auto. split; lia.
      + right; right. exists e. split; auto. split; auto. exists s2, d2, n2. split; auto. split; [lia|auto].
    - destruct (IH s1 d1 n acc Hi1) as (d' & s' & r & E' & Hr); [lia|lia|lia|]. exists d', s', r. rewrite Hpos in Hr. auto.
    - exists d1, s1, (Err e). split; [destruct e; auto; destruct k; auto; now contradict He|]. right; right. exists e. split; auto. split; auto.
      exists s, d, n. split; auto. split; [lia|]. rewrite E. reflexivity.
  Qed.
End Exact.

(** The filesystem reader itself, with any schedule of reads. *)
Definition raw_read (s : unit) (n : Z) (d : dev) : dev * (unit * res (list Z)) := let '(d', r) := dev_read n d in (d', (s, r)).
Lemma raw_conforming img : conforming raw_read (fun _ d => d_img d = img /\ 0 <= d_pos d) (fun _ d => d_pos d) (fun _ d => length (d_reads d)) img.
Proof.
  intros s d n (Hi & Hp) Hn. unfold raw_read, dev_read. destruct d as [im p reads seeks]; cbn [d_img d_pos d_reads d_seeks] in *. subst im. rewrite from_pos_nonneg by lia.
  assert (Hl : zlen (ztake n (zdrop p img)) = Z.max 0 (Z.min n (zlen img - p))) by (rewrite zlen_ztake, zlen_zdrop; pose proof (zlen_nonneg img); lia).
  assert (Hd : zlen (zdrop p img) = Z.max 0 (zlen img - p)) by (rewrite zlen_zdrop; lia).
  assert (T : forall k, ztake (zlen (ztake k (zdrop p img))) (zdrop p img) = ztake k (zdrop p img)).
  { intros k. destruct (Z.le_gt_cases k (zlen (zdrop p img))).
    - rewrite zlen_ztake. destruct (Z.le_gt_cases k 0); [rewrite !ztake_0 by lia; reflexivity|f_equal; lia].
    - rewrite (ztake_all k) by lia. apply ztake_all; lia. }
  destruct reads as [|[k|e] t].
  - do 3 eexists. split; [reflexivity|]. cbn [d_img d_pos d_reads]. split; [split; [reflexivity|lia]|]. left. eexists. split; [reflexivity|]. split; [lia|]. split; [now rewrite T|].
    split; [intros K E; rewrite E in Hl; change (zlen (@nil Z)) with 0 in Hl; lia|]. split; auto.
  - do 3 eexists. split; [reflexivity|]. rewrite ztake_ztake. set (m := Z.min _ n).
    assert (Hm : 0 < m <= n) by lia. assert (Hlm : zlen (ztake m (zdrop p img)) = Z.max 0 (Z.min m (zlen img - p))) by (rewrite zlen_ztake; lia).
    cbn [d_img d_pos d_reads]. split; [split; [reflexivity|lia]|]. left. eexists. split; [reflexivity|]. split; [lia|]. split; [now rewrite T|].
    split; [intros K E; rewrite E in Hlm; change (zlen (@nil Z)) with 0 in Hlm; lia|]. split; [auto|cbn; lia].
  - do 3 eexists. split; [reflexivity|]. cbn [d_img d_pos d_reads]. split; [auto|]. right. destruct e; try (right; eexists; split; [reflexivity|discriminate]). left. repeat split; auto.
Qed.
