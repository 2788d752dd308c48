(** * Specification of values whose mapping pairs are damaged: some extents, then bytes that are no mapping pair. *)
From Verif Require Import Base Dev Spec.

(** The bytes [bs] start with a header (not the end mark) that no pair of an extent on a volume with clusters of [cs] bytes can
    have behind the LCN [prev]: the pair is cut off, a field is wider than 8 bytes, the number of clusters is zero or its bytes
    exceed 64 bits, or the extent lies before the first cluster or at a byte position that exceeds 64 bits. *)
Definition no_pair (cs prev : Z) (bs : list Z) : Prop :=
  exists h t, bs = h :: t /\ h <> 0 /\
  let count := le_val (ztake (h mod 16) t) in
  (zlen t < h mod 16 + h / 16 \/ 8 < h mod 16 \/ 8 < h / 16 \/ count = 0 \/ U64_MAX < count * cs \/
   exists diff, signed_bytes (slice t (h mod 16) (h mod 16 + h / 16)) diff /\ (prev + diff < 0 \/ U64_MAX < (prev + diff) * cs)).

(** As [encodes] of Spec.v, but with such bytes in place of the end. *)
Inductive encodes_broken (cs : Z) : Z -> list extent -> list Z -> Prop :=
| eb_broken prev bs : no_pair cs prev bs -> encodes_broken cs prev [] bs
| eb_data prev lcn count cb ob l bs :
    unsigned_bytes cb count -> signed_bytes ob (lcn - prev) -> encodes_broken cs lcn l bs ->
    encodes_broken cs prev (mkExtent (Some lcn) count :: l) (zlen ob * 16 + zlen cb :: cb ++ ob ++ bs)
| eb_hole prev count cb l bs :
    unsigned_bytes cb count -> encodes_broken cs prev l bs ->
    encodes_broken cs prev (mkExtent None count :: l) (zlen cb :: cb ++ bs).

(** Where a value stands: at byte [p] of its content; or a seek has failed, and it reports [p] but does not stand there; or
    nothing is known any more. *)
Inductive place := At (p : Z) | Adrift (p : Z) | Unknown.

(** What an operation may return, and where the value stands afterwards.  [content] is what the extents before the damage give,
    up to the size of the value. *)
Inductive allowed (content : list Z) (size : Z) : place -> op -> opres -> place -> Prop :=
(* reads are exact, never short: either all bytes are there ... *)
| al_read p n : n <= zlen (ztake n (zdrop p content)) ->
    allowed content size (At p) (ORead n) (RBytes (Ok (ztake n (zdrop p content)))) (At (p + n))
(* ... or the read fails, and the bytes up to the end of [content] are skipped *)
| al_read_end p n e : zlen (ztake n (zdrop p content)) < n ->
    allowed content size (At p) (ORead n) (RBytes (Err e)) (At (p + zlen (ztake n (zdrop p content))))
| al_seek p s : let q := seek_target size p s in 0 <= q <= U64_MAX ->
    allowed content size (At p) (OSeek s) (RPos (Ok q)) (At q)
| al_invalid p s : ~ 0 <= seek_target size p s <= U64_MAX ->
    allowed content size (At p) (OSeek s) (RPos (Err (EIo InvalidInput))) (At p)
(* only seeks away from here to the end of [content] or behind it can fail *)
| al_seek_end p s e p' : let q := seek_target size p s in zlen content <= q <= U64_MAX -> q <> p -> p' = p \/ p' = 0 ->
    allowed content size (At p) (OSeek s) (RPos (Err e)) (Adrift p')
(* after a failed seek, a seek to a place before the reported one repairs the value ... *)
| al_back p s : let q := seek_target size p s in 0 <= q < p ->
    allowed content size (Adrift p) (OSeek s) (RPos (Ok q)) (At q)
| al_back_end p s e : let q := seek_target size p s in zlen content <= q < p ->
    allowed content size (Adrift p) (OSeek s) (RPos (Err e)) (Adrift 0)
(* ... a seek to the reported place does nothing ... *)
| al_stay p s : seek_target size p s = p -> allowed content size (Adrift p) (OSeek s) (RPos (Ok p)) (Adrift p)
| al_adrift_invalid p s : ~ 0 <= seek_target size p s <= U64_MAX ->
    allowed content size (Adrift p) (OSeek s) (RPos (Err (EIo InvalidInput))) (Adrift p)
(* ... and of reads and of seeks forward nothing is said *)
| al_adrift_read p n x : allowed content size (Adrift p) (ORead n) x Unknown
| al_adrift_forward p s x : p < seek_target size p s <= U64_MAX -> allowed content size (Adrift p) (OSeek s) x Unknown
| al_unknown o x : allowed content size Unknown o x Unknown.

Inductive allowed_run (content : list Z) (size : Z) : place -> list op -> list opres -> Prop :=
| ar_nil w : allowed_run content size w [] []
| ar_cons w o x w' os xs : allowed content size w o x w' -> allowed_run content size w' os xs ->
    allowed_run content size w (o :: os) (x :: xs).
