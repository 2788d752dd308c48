(** * Specification vocabulary for times, GUIDs, file references and name comparison. *)
From Verif Require Import Base.

(** ** Times.  Instants are nanoseconds since 1970-01-01 UTC. 1601-01-01 lies 11644473600 seconds before. *)
Definition YEAR_1601 : Z := - 11644473600 * 1000000000.
(** Whole 100 ns intervals that have passed since 1601 at instant [n]. *)
Definition intervals_since_1601 (n : Z) : Z := (n - YEAR_1601) / 100.
(** The instant that an NTFS timestamp denotes. *)
Definition instant_of (timestamp : Z) : Z := YEAR_1601 + 100 * timestamp.

(** ** GUIDs *)
(** [w] upper case hexadecimal digits (ASCII codes) of [n], most significant first. *)
Definition hex_char (x : Z) : Z := nth (Z.to_nat x) [48; 49; 50; 51; 52; 53; 54; 55; 56; 57; 65; 66; 67; 68; 69; 70] 0.
Fixpoint hex (w : nat) (n : Z) : list Z :=
  match w with O => [] | S v => hex v (n / 16) ++ [hex_char (n mod 16)] end.
(** The canonical form 8-4-4-4-12 of the GUID with these components. *)
Definition canonical_guid (a b c : Z) (d : list Z) : list Z :=
  hex 8 a ++ [45] ++ hex 4 b ++ [45] ++ hex 4 c ++ [45] ++
  flat_map (hex 2) (firstn 2 d) ++ [45] ++ flat_map (hex 2) (skipn 2 d).
Definition guid_ok (a b c : Z) (d : list Z) : Prop :=
  0 <= a < 16 ^ 8 /\ 0 <= b < 16 ^ 4 /\ 0 <= c < 16 ^ 4 /\ length d = 8%nat /\ bytes_ok d.
(** The components have no leading zero digits. *)
Definition guid_full (a b c : Z) (d : list Z) : Prop :=
  16 ^ 7 <= a /\ 16 ^ 3 <= b /\ 16 ^ 3 <= c /\ Forall (fun x => 16 <= x) d.

(** ** Names: UTF-16 code units and an upper case table. *)
Definition unit_ok (c : Z) : Prop := 0 <= c <= 65535.
Definition upper (table : list Z) (name : list Z) : list Z := map (fun c => nth (Z.to_nat c) table 0) name.
(** Lexicographic order: at the first difference [a] ends or has the smaller unit. *)
Definition lex_lt (a b : list Z) : Prop :=
  exists common y rest, b = common ++ y :: rest /\ (a = common \/ exists x rest', a = common ++ x :: rest' /\ x < y).

(** ** Sector-aligned access: a list of (seek, read) pairs, none relative to the end, where every read, rounded down and up to the
    surrounding sectors plus one more sector, lies on the device.  [p] is the position before. *)
From Verif Require Import Dev Spec.
Definition round_down (sector n : Z) : Z := n - n mod sector.
Fixpoint pairs_ok (sector len p : Z) (l : list (seekfrom * Z)) : Prop :=
  match l with
  | [] => True
  | (sf, n) :: t =>
      let q := seek_target len p sf in
      (forall k, sf <> SEnd k) /\ seek_arg_ok sf /\ 0 <= q /\ 0 <= n /\ round_down sector (q + n) + sector <= len /\
      pairs_ok sector len (q + n) t
  end.
Definition seek_then_read (x : seekfrom * Z) : list op := [OSeek (fst x); ORead (snd x)].

(** ** $DATA streams: the attribute at [off] is the stream with the given name (compared case-insensitively), some other attribute, or
    malformed. *)
Definition same_name (table stream name : list Z) : Prop := match stream with [] => name = [] | _ => upper table name = upper table stream end.
Definition is_stream (data table stream : list Z) (off : Z) : Prop :=
  attr_type_at data off = 128 /\ exists bs us, attr_name_at data off bs /\ utf16 bs us /\ same_name table stream us.
Definition not_stream (data table stream : list Z) (off : Z) : Prop :=
  type_known (attr_type_at data off) /\
  (attr_type_at data off <> 128 \/ exists bs us, attr_name_at data off bs /\ utf16 bs us /\ ~ same_name table stream us).
Definition malformed_stream (data : list Z) (off : Z) : Prop :=
  ~ type_known (attr_type_at data off) \/ attr_type_at data off = 128 /\ forall bs, ~ attr_name_at data off bs.

(** ** Readers in general *)
(** [read] is a reader over [content] that conforms to the contract of [Read::read]: with a nonempty buffer it delivers at least one
    of the bytes at its position, if there is one, and moves by what it delivered; or it is interrupted and has not moved; or it
    fails in another way. [left] bounds how many interruptions can still happen. *)
Definition conforming {S} (read : S -> Z -> dev -> dev * (S * res (list Z))) (I : S -> dev -> Prop) (posf : S -> dev -> Z)
  (left : S -> dev -> nat) (content : list Z) : Prop :=
  forall s d n, I s d -> 0 < n -> exists d' s' r, read s n d = (d', (s', r)) /\ I s' d' /\
    ((exists bs, r = Ok bs /\ zlen bs <= n /\ bs = ztake (zlen bs) (zdrop (posf s d) content) /\ (posf s d < zlen content -> bs <> []) /\
        posf s' d' = posf s d + zlen bs /\ (left s' d' <= left s d)%nat) \/
     (r = Err (EIo Interrupted) /\ posf s' d' = posf s d /\ (left s' d' < left s d)%nat) \/
     (exists e, r = Err e /\ e <> EIo Interrupted)).
