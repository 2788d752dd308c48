(** * Flattened iteration over the attributes of a file. *)
From Verif Require Import Base Dev Types Record DataRuns Stream NonResident Resident Attribute File Guid Structured AttrList Upcase Volume
  Spec SpecMisc SpecValues BaseProofs DevProofs StreamProofs ReaderProofs ResidentProofs NonResidentProofs AttributeProofs FileProofs StructuredProofs ValueProofs MiscProofs.
From Coq Require Import Lia.

Definition plain_item (f : file) (o : Z) : attr_item := mkItem f None o None.

Section NoList.
  Context (f : file) (nt : ntfs) (Hb : bytes_ok (f_data f)).
  Notation data := (f_data f).

  Lemma attrs_next_raw k s d : forall off l b, attr_walk data off l b -> 0 <= off -> s = off ->
    Forall (fun o => attr_type_at data o <> TY_AttributeList) l ->
    attrs_next (S k) nt (mkAttrs f s None None) d =
      (d, (mkAttrs f (fst (raw_next f s)) None None,
           match snd (raw_next f s) with
           | None => None
           | Some (Ok a) => Some (Ok (plain_item f (at_offset a)))
           | Some (Err e) => Some (Err e)
           | Some Panic => Some Panic
           | Some OutOfFuel => Some OutOfFuel
           end)).
  Proof.
    intros off l b W Ho -> Hl. cbn [attrs_next ax_list ax_file ax_raw ax_skip].
    destruct (raw_next_spec f off Ho) as (S1 & S2 & S3 & S4).
    inversion W as [? H|? H1 H2|? H1 H2 H3|? l' ? H1 H2 W']; subst.
    - rewrite (S1 H). reflexivity.
    - rewrite (S2 H1 H2). reflexivity.
    - destruct (S3 H1 H2 H3) as (x & ->). reflexivity.
    - rewrite (S4 H1 H2). cbn [fst snd at_offset]. destruct (attr_ty_spec f off None Ho H2) as (T1 & T2). inversion Hl; subst.
      destruct (in_dec Z.eq_dec (attr_type_at data off) [16; 32; 48; 64; 80; 96; 112; 128; 144; 160; 176; 192; 208; 224; 240; 256; 4294967295]) as [K|K].
      + rewrite (T1 K). replace (attr_type_at data off =? TY_AttributeList) with false by lia. reflexivity.
      + rewrite (T2 K). reflexivity.
  Qed.

  (** What a search loop does: offer the attributes in order. *)
  Fixpoint first_accepted {A} (accept : attr_item -> attribute -> M (option A)) (final : res (option A)) (l : list Z) (d : dev) : dev * res (option A) :=
    match l with
    | [] => (d, final)
    | o :: t =>
        match accept (plain_item f o) (mkAttr f o None) d with
        | (d', Ok None) => first_accepted accept final t d'
        | r => r
        end
    end.

  Lemma attrs_search_raw {A} accept off l b : attr_walk data off l b -> 0 <= off ->
    Forall (fun o => attr_type_at data o <> TY_AttributeList) l ->
    exists e, forall fuel d, (length l < fuel)%nat ->
    @attrs_search A fuel nt accept (mkAttrs f off None None) d = first_accepted accept (if b : bool then Ok None else Err e) l d.
  Proof.
    intros W. assert (W0 := W). induction W as [off H|off H Hm|off H Hm Hf|off l b Hm Hf W IH]; intros Ho Hl.
    - exists EInvalidTime. intros [|fuel] d Hfu; [cbn in Hfu; lia|]. unfold attrs_search; fold (@attrs_search A).
      rewrite (attrs_next_raw _ _ _ _ _ _ W0 Ho eq_refl Hl). destruct (raw_next_spec f off Ho) as (S1 & _). rewrite (S1 H). reflexivity.
    - exists EInvalidTime. intros [|fuel] d Hfu; [cbn in Hfu; lia|]. unfold attrs_search; fold (@attrs_search A).
      rewrite (attrs_next_raw _ _ _ _ _ _ W0 Ho eq_refl Hl). destruct (raw_next_spec f off Ho) as (_ & S2 & _). rewrite (S2 H Hm). reflexivity.
    - destruct (raw_next_spec f off Ho) as (_ & _ & S3 & _). destruct (S3 H Hm Hf) as (x & E). exists x.
      intros [|fuel] d Hfu; [cbn in Hfu; lia|]. unfold attrs_search; fold (@attrs_search A).
      rewrite (attrs_next_raw _ _ _ _ _ _ W0 Ho eq_refl Hl). rewrite E. reflexivity.
    - destruct (raw_next_spec f off Ho) as (_ & _ & _ & S4). specialize (S4 Hm Hf). pose proof Hf as (F1 & F2 & F3).
      destruct (IH W ltac:(lia) (Forall_inv_tail Hl)) as (e & IHe). exists e.
      intros [|fuel] d Hfu; [cbn in Hfu; lia|]. cbn [length] in Hfu. unfold attrs_search; fold (@attrs_search A).
      rewrite (attrs_next_raw _ _ _ _ _ _ W0 Ho eq_refl Hl). rewrite S4. cbn [fst snd at_offset].
      unfold item_to_attribute, plain_item. cbn [ai_value_file ai_file ai_offset ai_entries].
      assert (En : attr_new f off None = Ok (mkAttr f off None)).
      { unfold raw_next in S4. rewrite get_range_in in S4 by lia. destruct (le_val _ =? TY_End); [discriminate|].
        destruct (attr_new f off None) as [a| | |]; try discriminate. destruct (attr_length a); try discriminate. congruence. }
      rewrite En. cbn [first_accepted]. unfold plain_item. destruct (accept _ _ d) as [d' [[x|]|x| |]]; auto. apply IHe. lia.
  Qed.

  Lemma attrs_start_eq : 22 <= zlen data -> attrs_start f = Ok (mkAttrs f (field 2 data 20) None None).
  Proof. intros H. unfold attrs_start, raw_start, f_first_attribute_offset. unfold rd_u16. rewrite rd_in by lia. reflexivity. Qed.


  Lemma attrs_iteration off l b : attr_walk data off l b -> 0 <= off ->
    Forall (fun o => attr_type_at data o <> TY_AttributeList) l ->
    forall k n d, iterate (with_dev (attrs_next (S k) nt)) n (mkAttrs f off None None, d) =
        map (fun x => match x with Some (Ok a) => Some (Ok (plain_item f (at_offset a))) | Some (Err e) => Some (Err e)
                      | Some Panic => Some Panic | Some OutOfFuel => Some OutOfFuel | None => None end) (iterate (raw_next f) n off) /\
      snd (iterate_state (with_dev (attrs_next (S k) nt)) n (mkAttrs f off None None, d)) = d.
  Proof.
    intros W Ho Hl k n. revert off l b W Ho Hl. induction n as [|n IH]; intros off l b W Ho Hl d; [auto|].
    assert (E : with_dev (attrs_next (S k) nt) (mkAttrs f off None None, d) =
      ((mkAttrs f (fst (raw_next f off)) None None, d),
           match snd (raw_next f off) with
           | None => None | Some (Ok a) => Some (Ok (plain_item f (at_offset a))) | Some (Err e) => Some (Err e)
           | Some Panic => Some Panic | Some OutOfFuel => Some OutOfFuel end)).
    { unfold with_dev. cbn [fst snd]. rewrite (attrs_next_raw k off d off l b W Ho eq_refl Hl). reflexivity. }
    cbn [iterate iterate_state]. rewrite E. cbn [fst].
    assert (Hn : exists l' b', attr_walk data (fst (raw_next f off)) l' b' /\ 0 <= fst (raw_next f off) /\ Forall (fun o => attr_type_at data o <> TY_AttributeList) l').
    { destruct (raw_next_spec f off Ho) as (S1 & S2 & S3 & S4).
      inversion W as [? H|? H1 H2|? H1 H2 H3|? l' ? H1 H2 W']; subst.
      - rewrite (S1 H). eauto.
      - rewrite (S2 H1 H2). eauto.
      - destruct (S3 H1 H2 H3) as (x & ->). eauto.
      - rewrite (S4 H1 H2). cbn [fst]. pose proof H2 as (F1 & F2 & F3). exists l', b. split; auto. split; [lia|now inversion Hl]. }
    destruct Hn as (l' & b' & W' & Ho' & Hl'). destruct (raw_next f off) as [off' x]. cbn [fst snd] in *.
    destruct (IH off' l' b' W' Ho' Hl' d) as (I1 & I2). cbn [map]. rewrite I1. auto.
  Qed.

  Lemma find_attribute_loop ty name off l b : attr_walk data off l b -> 0 <= off ->
    Forall (fun o => attr_type_at data o <> TY_AttributeList) l -> forall fuel fuel' d, (length l < fuel)%nat -> (length l < fuel')%nat ->
    (do x <- attrs_search fuel nt (fun i a => mlift (let? m := attr_matches a ty name None in Ok (if (m : bool) then Some i else None))) (mkAttrs f off None None);
     mlift (match x with Some i => Ok i | None => Err (EAttributeNotFound (f_position f) ty) end)) d =
    (d, let? a := find_resident_loop fuel' f ty name None off in Ok (plain_item f (at_offset a))).
  Proof.
    intros W. assert (W0 := W). induction W as [off H|off H Hm|off H Hm Hf|off l b Hm Hf W IH]; intros Ho Hl [|fuel] [|fuel'] d H1 H2; try (cbn in *; lia);
      unfold mbind, mlift; unfold attrs_search; fold (@attrs_search attr_item); rewrite (attrs_next_raw _ _ _ _ _ _ W0 Ho eq_refl Hl);
      cbn [find_resident_loop]; destruct (raw_next_spec f off Ho) as (S1 & S2 & S3 & S4).
    - rewrite (S1 H). reflexivity.
    - rewrite (S2 H Hm). reflexivity.
    - destruct (S3 H Hm Hf) as (x & ->). reflexivity.
    - rewrite (S4 Hm Hf). pose proof Hf as (F1 & F2 & F3). cbn [fst snd at_offset length rbind] in *.
      unfold item_to_attribute, plain_item. cbn [ai_value_file ai_file ai_offset ai_entries].
      rewrite (proj1 (attr_new_spec f off None Ho) Hf).
      destruct (attr_matches (mkAttr f off None) ty name None) as [[|]|x| |]; cbn [rbind]; auto.
      apply (IH W ltac:(lia) (Forall_inv_tail Hl) fuel fuel' d ltac:(lia) ltac:(lia)).
  Qed.

  (** Three outcomes for each attribute. *)
  Lemma first_accepted_cases {A} (accept : attr_item -> attribute -> M (option A)) (P : Z -> A -> Prop) (Q R : Z -> Prop) e b l d :
    (forall o, In o l -> exists r, accept (plain_item f o) (mkAttr f o None) d = (d, r) /\
       match r with Ok (Some x) => P o x | Ok None => Q o | Err _ => R o | _ => False end) ->
    exists r, first_accepted accept (if b : bool then Ok None else Err e) l d = (d, r) /\
    match r with
    | Ok (Some x) => exists l1 o l2, l = l1 ++ o :: l2 /\ Forall Q l1 /\ P o x
    | Ok None => b = true /\ Forall Q l
    | Err _ => (b = false /\ Forall Q l) \/ exists l1 o l2, l = l1 ++ o :: l2 /\ Forall Q l1 /\ R o
    | _ => False
    end.
  Proof.
    induction l as [|o l IH]; intros H; cbn [first_accepted].
    - eexists. split; [reflexivity|]. destruct b; auto.
    - destruct (H o (or_introl eq_refl)) as (r & -> & Hr). destruct r as [[x|]|x| |]; try contradiction.
      + eexists. split; [reflexivity|]. exists [], o, l. auto.
      + destruct IH as (r & E & Hc); [intros; apply H; now right|]. exists r. split; auto. destruct r as [[x|]|x| |]; auto.
        * destruct Hc as (l1 & o' & l2 & -> & H1 & H2). exists (o :: l1), o', l2. auto.
        * destruct Hc. auto.
        * destruct Hc as [(H1 & H2)|(l1 & o' & l2 & -> & H1 & H2)]; auto. right. exists (o :: l1), o', l2. auto.
      + eexists. split; [reflexivity|]. right. exists [], o, l. auto.
  Qed.
End NoList.

Lemma attributes_iteration nt f offs clean : bytes_ok (f_data f) -> 22 <= zlen (f_data f) ->
  attr_walk (f_data f) (field 2 (f_data f) 20) offs clean -> no_attribute_list (f_data f) offs ->
  exists st e, attrs_start f = Ok st /\ forall k n d,
    iterate (with_dev (attrs_next (S k) nt)) (length offs + n) (st, d) =
      map (fun o => Some (Ok (mkItem f None o None))) offs ++ repeat (if clean : bool then None else Some (Err e)) n /\
    snd (iterate_state (with_dev (attrs_next (S k) nt)) (length offs + n) (st, d)) = d.
Proof.
  intros Hb Hl W Hn. assert (Hs : 0 <= field 2 (f_data f) 20) by (apply field_nonneg; auto).
  destruct (walk_iterate f _ _ _ W Hs) as (e & He).
  exists (mkAttrs f (field 2 (f_data f) 20) None None), e. split; [now apply attrs_start_eq|]. intros k n d.
  destruct (attrs_iteration f nt _ _ _ W Hs Hn k (length offs + n)%nat d) as (E & Ed). split; [|exact Ed].
  rewrite E, He, map_app, map_map. f_equal. clear. induction n as [|n IH]; cbn [repeat map]; [reflexivity|]. rewrite IH. destruct clean; reflexivity.
Qed.

Lemma find_attribute_spec nt f ty name offs clean : bytes_ok (f_data f) -> 22 <= zlen (f_data f) ->
  attr_walk (f_data f) (field 2 (f_data f) 20) offs clean -> no_attribute_list (f_data f) offs ->
  forall fuel d, (length offs < fuel)%nat ->
  find_attribute fuel nt f ty name d = (d, let? a := find_resident_attribute f ty name None in Ok (mkItem f None (at_offset a) None)).
Proof.
  intros Hb Hl W Hn fuel d Hf. assert (Hs : 0 <= field 2 (f_data f) 20) by (apply field_nonneg; auto).
  unfold find_attribute, find_resident_attribute. unfold mbind at 1, mlift at 1. rewrite attrs_start_eq by auto.
  unfold raw_start, f_first_attribute_offset, rd_u16. rewrite rd_in by lia. cbn [rbind].
  rewrite (find_attribute_loop f nt ty name _ _ _ W Hs Hn fuel (length (f_data f) + 1)%nat d); auto.
  destruct (walk_length f _ _ _ W Hs) as (_ & [->|H]); [cbn; lia|]. unfold zlen in *. lia.
Qed.

(** [data] *)
Lemma unit_ok_units bs : bytes_ok bs -> Forall unit_ok (units bs).
Proof.
  induction bs as [bs IH] using (well_founded_induction (well_founded_ltof _ (@length Z))). intros Hb.
  destruct bs as [|lo [|hi bs]]; cbn [units]; try constructor.
  - inversion Hb as [|? ? H1 H2]; subst. inversion H2 as [|? ? H3 H4]; subst. unfold is_byte, unit_ok in *. lia.
  - apply IH; [unfold ltof; cbn; lia|]. inversion Hb as [|? ? H1 H2]; subst. now inversion H2.
Qed.

Lemma data_accepts_spec nt f t stream o i : bytes_ok (f_data f) -> 0 <= o -> attr_fits (f_data f) o ->
  stream = [] \/ upcase_table nt = Some t /\ zlen t = 65536 /\ Forall unit_ok stream ->
  match data_accepts nt stream i (mkAttr f o None) with
  | Ok (Some x) => x = i /\ is_stream (f_data f) t stream o
  | Ok None => not_stream (f_data f) t stream o
  | Err _ => malformed_stream (f_data f) o
  | _ => False
  end.
Proof.
  intros Hb Ho Hf Hst. unfold data_accepts, is_stream, not_stream, malformed_stream.
  destruct (attr_ty_spec f o None Ho Hf) as (T1 & T2).
  destruct (in_dec Z.eq_dec (attr_type_at (f_data f) o) [16; 32; 48; 64; 80; 96; 112; 128; 144; 160; 176; 192; 208; 224; 240; 256; 4294967295]) as [K|K];
    [rewrite (T1 K)|rewrite (T2 K); cbn [rbind]; auto]. cbn [rbind].
  unfold TY_Data. destruct (attr_type_at (f_data f) o =? 128) eqn:E; cbn [negb]; [|split; auto; left; lia].
  apply Z.eqb_eq in E. destruct (attr_name_spec f Hb o None Ho Hf) as [(bs & -> & Hbs)|(x & -> & Hx)]; cbn [rbind]; [|auto].
  pose proof (attr_name_even f Hb o bs Ho Hf Hbs) as Hev.
  assert (Hu : utf16 bs (units bs)) by (now apply units_utf16).
  assert (Hbb : bytes_ok bs). { destruct Hbs as [(_ & ->)|(_ & _ & _ & ->)]; [constructor|now apply bytes_ok_slice]. }
  destruct stream as [|c stream].
  - cbn [rbind]. destruct (zlen bs =? 0) eqn:Ez.
    + apply Z.eqb_eq in Ez. destruct bs as [|y bs]; [|unfold zlen in Ez; cbn in Ez; lia]. split; auto. split; auto. exists [], []. repeat split; auto.
    + split; auto. right. exists bs, (units bs). split; auto. split; auto. cbn [same_name]. intros Hn. destruct bs as [|lo [|hi bs]]; [discriminate| |discriminate].
      destruct Hev as (m & Hev). cbn in Hev. lia.
  - destruct Hst as [Hst|(Ht & Hl & Hs)]; [discriminate|].
    destruct (upcase_cmp_spec nt t (units bs) (c :: stream) Ht Hl (unit_ok_units bs Hbb) Hs) as (r & -> & Heq & _). cbn [rbind].
    destruct r.
    + split; auto. split; auto. exists bs, (units bs). split; auto. split; auto. now apply Heq.
    + split; auto. right. exists bs, (units bs). split; auto. split; auto. cbn [same_name]. intros H. apply Heq in H. discriminate.
    + split; auto. right. exists bs, (units bs). split; auto. split; auto. cbn [same_name]. intros H. apply Heq in H. discriminate.
Qed.

Lemma walk_in f off l b o : attr_walk (f_data f) off l b -> 0 <= off -> In o l -> 0 <= o /\ attr_fits (f_data f) o.
Proof.
  intros W Ho Hi. destruct (walk_length f _ _ _ W Ho) as (K & _). rewrite Forall_forall in K. destruct (K o Hi). split; [lia|auto].
Qed.

Lemma file_data_spec nt f t stream offs clean : bytes_ok (f_data f) -> 22 <= zlen (f_data f) ->
  attr_walk (f_data f) (field 2 (f_data f) 20) offs clean -> no_attribute_list (f_data f) offs ->
  stream = [] \/ upcase_table nt = Some t /\ zlen t = 65536 /\ Forall unit_ok stream ->
  forall fuel d, (length offs < fuel)%nat ->
  exists r, file_data fuel nt f stream d = (d, r) /\
  match r with
  | Ok (Some i) => exists l1 o l2, offs = l1 ++ o :: l2 /\ Forall (not_stream (f_data f) t stream) l1 /\ is_stream (f_data f) t stream o /\
                     i = mkItem f None o None
  | Ok None => clean = true /\ Forall (not_stream (f_data f) t stream) offs
  | Err _ => (clean = false /\ Forall (not_stream (f_data f) t stream) offs) \/
             exists l1 o l2, offs = l1 ++ o :: l2 /\ Forall (not_stream (f_data f) t stream) l1 /\ malformed_stream (f_data f) o
  | _ => False
  end.
Proof.
  intros Hb Hl W Hn Hst fuel d Hf. assert (Hs : 0 <= field 2 (f_data f) 20) by (apply field_nonneg; auto).
  unfold file_data. unfold mbind at 1, mlift at 1. rewrite attrs_start_eq by auto.
  destruct (attrs_search_raw f nt (fun i a => mlift (data_accepts nt stream i a)) _ _ _ W Hs Hn) as (e & He). rewrite He by auto. 
  destruct (first_accepted_cases f (fun i a => mlift (data_accepts nt stream i a)) (fun o i => i = plain_item f o /\ is_stream (f_data f) t stream o)
    (not_stream (f_data f) t stream) (malformed_stream (f_data f)) e clean offs d) as (r & E & Hr).
  { intros o Hi. destruct (walk_in f _ _ _ o W Hs Hi) as (Ho & Hfit). eexists. split; [reflexivity|].
    pose proof (data_accepts_spec nt f t stream o (plain_item f o) Hb Ho Hfit Hst) as H. destruct (data_accepts _ _ _ _) as [[x|]|x| |]; auto. }
  exists r. split; auto. destruct r as [[x|]|x| |]; auto. destruct Hr as (l1 & o & l2 & H1 & H2 & H3 & H4). eauto 10.
Qed.

(** [name] *)
Lemma fr_number_field bs : bytes_ok bs -> 8 <= zlen bs -> fr_number (slice bs 0 8) = field 6 bs 0.
Proof.
  intros Hb Hl. destruct (fr_split (slice bs 0 8) ltac:(now apply bytes_ok_slice) ltac:(rewrite slice_len; lia)) as (-> & _). unfold field. f_equal.
  unfold slice. rewrite !zdrop_0 by lia. rewrite ztake_ztake. f_equal; lia.
Qed.

Lemma rs_read_exact_loop_dev {S} (read : S -> Z -> dev -> dev * (S * res (list Z))) (I : S -> Prop) :
  (forall s n d, I s -> fst (read s n d) = d /\ I (fst (snd (read s n d)))) ->
  forall fuel s n acc d, I s -> fst (rs_read_exact_loop read fuel s n acc d) = d /\ I (fst (snd (rs_read_exact_loop read fuel s n acc d))).
Proof.
  intros H. induction fuel as [|fuel IH]; intros s n acc d Hi; cbn [rs_read_exact_loop]; destruct (n <=? 0); auto.
  destruct (H s n d Hi) as (H1 & H2). destruct (read s n d) as [d1 [s1 r]]. cbn [fst snd] in *. subst d1.
  destruct r as [[|x bs]|e| |]; cbn [fst snd]; auto. destruct e; cbn; auto. destruct k; auto.
Qed.

Definition is_res (v : aval) : Prop := exists r, v = AVSimple (SVRes r).
Lemma attached_res_dev fuel n s d : is_res s -> fst (attached (av_read fuel) s n d) = d /\ is_res (fst (snd (attached (av_read fuel) s n d))).
Proof.
  intros (r & ->). unfold attached. cbn [av_read sv_read]. pose proof (res_read_dev r n d) as H. destruct (res_read r n d) as [d' [r' x]]. cbn in H. subst d'.
  destruct x; cbn; split; auto; eexists; reflexivity.
Qed.

Lemma fn_structured_dev fuel nt f o d : 
  (exists r, attr_value_simple (cluster_size nt) (mkAttr f o None) = Ok (SVRes r)) \/ (exists x, attr_value_simple (cluster_size nt) (mkAttr f o None) = Err x) ->
  fst (attr_structured fuel nt (@fn_new aval) TY_FileName (mkAttr f o None) d) = d.
Proof.
  intros Hv. unfold attr_structured, mbind, mlift. destruct (attr_ensure_ty _ _); auto.
  unfold attr_value. cbn [at_entries]. unfold mbind, mlift, mret. destruct Hv as [(r & ->)|(x & ->)]; auto.
  unfold from_aval. set (rx := attached_exact _). cbn [av_len].
  assert (Hrx : forall n s d, is_res s -> fst (rx n s d) = d /\ is_res (fst (snd (rx n s d)))).
  { intros n s d0 Hi. unfold rx, attached_exact, rs_read_exact. apply rs_read_exact_loop_dev; auto. intros. now apply attached_res_dev. }
  unfold fn_new. destruct (_ <? 68); auto. unfold rm_bind.
  destruct (Hrx 66 (AVSimple (SVRes r)) d) as (H1 & H2); [eexists; reflexivity|]. destruct (rx 66 _ d) as [d1 [s1 [h|e| |]]]; cbn [fst snd] in *; subst d1; auto.
  destruct (_ <? _); auto. destruct (3 <? _); auto. destruct (Hrx (field 1 h 64 * 2) s1 d H2) as (H3 & H4).
  destruct (rx _ s1 d) as [d1 [s2 [nm|e| |]]]; cbn [fst snd] in *; subst d1; auto.
Qed.

(** A resident attribute parses on every device. *)
Lemma parses_attribute_resident {A} new (decodes : list Z -> A -> Prop) nt f o ty bs d fuel : parses new decodes ->
  bytes_ok (f_data f) -> 0 <= o -> attr_fits (f_data f) o -> attr_type_at (f_data f) o = ty -> type_known ty ->
  attr_resident_at (f_data f) o -> o + 22 <= zlen (f_data f) -> attr_value_at (f_data f) o bs ->
  decodes_exactly decodes bs (snd (attr_structured fuel nt (new aval) ty (mkAttr f o None) d)) /\
  exists r, attr_value_simple (cluster_size nt) (mkAttr f o None) = Ok (SVRes r).
Proof.
  intros P Hb Ho Hf Ht Hk Hr Hl Hv. unfold attr_structured, mbind, mlift. rewrite type_known_ty by auto.
  destruct (attr_resident_value_spec f Hb o None Ho Hf Hl) as [(bs2 & E & Hv2)|(x & E & Hno)]; [|now destruct (Hno bs)].
  assert (bs2 = bs) by (destruct Hv as (_ & ->), Hv2 as (_ & ->); reflexivity). subst bs2.
  destruct (resident_len_bound f o bs Hb Ho Hf Hv) as (Hz & Hbs).
  assert (Ev : exists p, attr_value_simple (cluster_size nt) (mkAttr f o None) = Ok (SVRes (res_new bs p))).
  { unfold attr_value_simple, attr_is_resident. destruct Hf as (F1 & F2 & F3). rewrite attr_rd_in by lia. cbn [rbind].
    unfold attr_resident_at in Hr. rewrite Hr. cbn [Z.eqb]. rewrite E. cbn [rbind]. eauto. }
  destruct Ev as (p & Ev). split; [|eauto]. unfold attr_value. cbn [at_entries]. unfold mbind, mlift, mret. rewrite Ev.
  unfold from_aval. cbn [av_len sv_len]. unfold res_len. cbn [rv_data res_new].
  pose proof (refines_map (fun r => AVSimple (SVRes r)) _ _ _ _ _ _ _ (av_read fuel) (av_seek fuel) av_stream_position
    (res_refines_any (fun _ => True) bs p Hz) ltac:(intros s n d0; cbn; destruct (res_read s n d0) as [? [? ?]]; reflexivity)
    ltac:(intros s n d0; cbn; destruct (res_seek s n d0) as [? [? ?]]; reflexivity) ltac:(reflexivity)) as R'.
  pose proof (reads_front_refines _ _ _ _ _ _ _ (attached_refines _ _ _ _ _ _ _ R')) as Hrx.
  specialize (P aval (attached_exact (av_read fuel)) _ bs Hbs Hrx (av_data_position (AVSimple (SVRes (res_new bs p)))) (AVSimple (SVRes (res_new bs p))) d).
  destruct (new aval _ _ _ (AVSimple _) d) as [d' [s' r]]. cbn [snd] in *. apply P.
  split; [|auto]. exists (res_new bs p). split; auto. cbn. split; auto. split; auto. unfold U64_MAX; lia.
Qed.

Definition name_accepts (fuel : nat) (nt : ntfs) (ns parent : option Z) (i : attr_item) (a : attribute) : M (option file_name) :=
    try ty <- attr_ty a;
    if negb (ty =? TY_FileName) then mret None else
    do fn <- attr_structured fuel nt fn_new TY_FileName a;
    try ns' <- fn_namespace fn;
    if negb (match ns with Some n => ns' =? n | None => true end) then mret None else
    if negb (match parent with Some p => fr_number (fn_parent fn) =? p | None => true end) then mret None else
    mret (Some fn).

Lemma name_accepts_spec fuel nt f ns parent o i d : bytes_ok (f_data f) -> 0 <= o -> attr_fits (f_data f) o ->
  (attr_type_at (f_data f) o = 48 -> attr_resident_at (f_data f) o /\ o + 22 <= zlen (f_data f)) ->
  exists r, name_accepts fuel nt ns parent i (mkAttr f o None) d = (d, r) /\
  match r with
  | Ok (Some x) => is_name (f_data f) ns parent o x
  | Ok None => not_name (f_data f) ns parent o
  | Err _ => malformed_name (f_data f) o
  | _ => False
  end.
Proof.
  intros Hb Ho Hf Hres. unfold name_accepts, is_name, not_name, malformed_name. unfold mbind at 1, mlift at 1.
  destruct (attr_ty_spec f o None Ho Hf) as (T1 & T2).
  destruct (in_dec Z.eq_dec (attr_type_at (f_data f) o) [16; 32; 48; 64; 80; 96; 112; 128; 144; 160; 176; 192; 208; 224; 240; 256; 4294967295]) as [K|K];
    [rewrite (T1 K)|rewrite (T2 K); eexists; split; [reflexivity|left; exact K]].
  unfold TY_FileName at 1. destruct (attr_type_at (f_data f) o =? 48) eqn:E; cbn [negb]; [|eexists; split; [reflexivity|split; auto; left; lia]].
  apply Z.eqb_eq in E. destruct (Hres E) as (Hr & Hl).
  destruct (attr_resident_value_spec f Hb o None Ho Hf Hl) as [(bs & Ev & Hv)|(x & Ev & Hno)].
  - destruct (parses_attribute_resident _ _ nt f o 48 bs d fuel fn_parses Hb Ho Hf E ltac:(cbn; auto 20) Hr Hl Hv) as (Hd & Hs).
    pose proof (fn_structured_dev fuel nt f o d (or_introl Hs)) as Hdev. unfold TY_FileName in *. unfold mbind at 1.
    destruct (attr_structured fuel nt _ 48 _ d) as [d' r]. cbn [fst snd] in *. subst d'.
    assert (Huniq : forall bs', attr_value_at (f_data f) o bs' -> bs' = bs) by (intros bs' (_ & ->); destruct Hv as (_ & ->); reflexivity).
    destruct (resident_len_bound f o bs Hb Ho Hf Hv) as (Hz & Hbs).
    destruct r as [v|x| |]; cbn [decodes_exactly] in Hd; try contradiction.
    + unfold mbind, mlift. rewrite (dfn_namespace bs v Hd). rewrite (dfn_parent bs v Hd). pose proof (dfn_size bs v Hd). rewrite fr_number_field by (auto; lia).
      destruct (match ns with Some n => _ | None => true end) eqn:E1; cbn [negb].
      2: { eexists. split; [reflexivity|]. split; auto. right. exists bs, v. split; auto. split; auto. intros (W1 & _).
           destruct ns as [n|]; [|discriminate]. specialize (W1 n eq_refl). lia. }
      destruct (match parent with Some n => _ | None => true end) eqn:E2; cbn [negb].
      2: { eexists. split; [reflexivity|]. split; auto. right. exists bs, v. split; auto. split; auto. intros (_ & W1).
           destruct parent as [n|]; [|discriminate]. specialize (W1 n eq_refl). lia. }
      eexists. split; [reflexivity|]. split; auto. exists bs. split; auto. split; auto. split; intros y ->; lia.
    + eexists. split; [reflexivity|]. right. split; auto. intros bs' v (H1 & H2). rewrite (Huniq bs' H1) in H2. now destruct (Hd v).
  - unfold TY_FileName in *. unfold attr_structured. unfold mbind at 1 2, mlift at 1. rewrite (type_known_ty f o None 48) by (auto; cbn; auto 20).
    unfold attr_value. cbn [at_entries]. unfold mbind, mlift, mret, attr_value_simple, attr_is_resident. destruct Hf as (F1 & F2 & F3). rewrite attr_rd_in by lia. cbn [rbind].
    unfold attr_resident_at in Hr. rewrite Hr. cbn [Z.eqb]. rewrite Ev. cbn [rbind]. eexists. split; [reflexivity|]. right. split; auto.
    intros bs v (H & _). now destruct (Hno bs).
Qed.

Lemma file_name_spec nt f ns parent offs clean : bytes_ok (f_data f) -> 22 <= zlen (f_data f) ->
  attr_walk (f_data f) (field 2 (f_data f) 20) offs clean -> no_attribute_list (f_data f) offs ->
  Forall (fun o => attr_type_at (f_data f) o = 48 -> attr_resident_at (f_data f) o /\ o + 22 <= zlen (f_data f)) offs ->
  forall fuel d, (length offs < fuel)%nat ->
  exists r, file_name_of fuel nt f ns parent d = (d, r) /\
  match r with
  | Ok (Some v) => exists l1 o l2, offs = l1 ++ o :: l2 /\ Forall (not_name (f_data f) ns parent) l1 /\ is_name (f_data f) ns parent o v
  | Ok None => clean = true /\ Forall (not_name (f_data f) ns parent) offs
  | Err _ => (clean = false /\ Forall (not_name (f_data f) ns parent) offs) \/
             exists l1 o l2, offs = l1 ++ o :: l2 /\ Forall (not_name (f_data f) ns parent) l1 /\ malformed_name (f_data f) o
  | _ => False
  end.
Proof.
  intros Hb Hl W Hn Hres fuel d Hf. assert (Hs : 0 <= field 2 (f_data f) 20) by (apply field_nonneg; auto).
  change (file_name_of fuel nt f ns parent) with (try st <- attrs_start f; attrs_search fuel nt (name_accepts fuel nt ns parent) st).
  unfold mbind at 1, mlift at 1. rewrite attrs_start_eq by auto.
  destruct (attrs_search_raw f nt (name_accepts fuel nt ns parent) _ _ _ W Hs Hn) as (e & He). rewrite He by auto. 
  apply first_accepted_cases. intros o Hi. destruct (walk_in f _ _ _ o W Hs Hi) as (Ho & Hfit).
  apply name_accepts_spec; auto. rewrite Forall_forall in Hres. auto.
Qed.

Lemma decodes_fun bs v w : decodes_file_name bs v -> decodes_file_name bs w -> fn_namespace v = fn_namespace w.
Proof. intros [] []. congruence. Qed.
Lemma name_at_fun data o a b : attr_name_at data o a -> attr_name_at data o b -> a = b.
Proof. intros [([H|H] & ->)|(H1 & H2 & H3 & ->)] [([K|K] & ->)|(K1 & K2 & K3 & ->)]; auto; try contradiction. Qed.

Lemma stream_name_exclusive data t stream ns parent o :
  ~ (is_stream data t stream o /\ not_stream data t stream o) /\ ~ (malformed_stream data o /\ (is_stream data t stream o \/ not_stream data t stream o)) /\
  (forall v, ~ (is_name data ns parent o v /\ not_name data ns parent o)) /\
  ~ (malformed_name data o /\ ((exists v, is_name data ns parent o v) \/ not_name data ns parent o)).
Proof.
  unfold is_stream, not_stream, malformed_stream, is_name, not_name, malformed_name.
  assert (K128 : type_known 128) by (cbn; auto 20). assert (K48 : type_known 48) by (cbn; auto 20).
  split; [|split; [|split]].
  - intros ((H1 & bs & us & H2 & H3 & H4) & (_ & [H|(bs' & us' & K2 & K3 & K4)])); [tauto|].
    pose proof (name_at_fun _ _ _ _ H2 K2); subst bs'. pose proof (utf16_fun _ _ _ H3 K3); subst us'. tauto.
  - intros ([H|(H & Hn)] & [(K1 & bs & us & K2 & _)|(K1 & [K2|(bs & us & K2 & _)])]); try tauto; try (now destruct (Hn bs)). rewrite K1 in H. tauto.
  - intros v ((H1 & bs & H2 & H3 & H4 & H5) & (_ & [H|(bs' & v' & K2 & K3 & K4)])); [tauto|].
    destruct H2 as (_ & ->), K2 as (_ & ->). tauto.
  - intros ([H|(H & Hn)] & [(v & K1 & bs & K2 & K3 & _)|(K1 & [K2|(bs & v & K2 & K3 & _)])]); try tauto; try (now destruct (Hn bs v)). rewrite K1 in H. tauto.
Qed.
