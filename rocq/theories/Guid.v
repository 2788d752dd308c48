(** * GUIDs: src/guid.rs. Text is a list of ASCII codes. *)
From Verif Require Import Base.

(** src/guid.rs 13-18 [NtfsGuid]; [g4] are the 8 bytes of [data4]. *)
Record guid := mkGuid { g1 : Z; g2 : Z; g3 : Z; g4 : list Z }.

(** src/guid.rs 13-18: binrw reads the fields little endian, in order (16 bytes). *)
Definition guid_of_bytes (b : list Z) : guid := mkGuid (field 4 b 0) (field 2 b 4) (field 2 b 6) (slice b 8 16).

(** src/guid.rs 20-38, formatting [X]: an upper case hexadecimal digit. *)
Definition hex_digit (x : Z) : Z := if x <? 10 then 48 + x else 55 + x.

(** src/guid.rs 20-38, formatting [X]: the digits of [n], least significant first, without leading zeros (at least one digit). *)
Fixpoint hex_rev (fuel : nat) (n : Z) : list Z :=
  match fuel with
  | O => []
  | S f => hex_digit (n mod 16) :: (if n / 16 =? 0 then [] else hex_rev f (n / 16))
  end.

(** src/guid.rs 20-38, [core::fmt]: ["{:wX}"] writes the digits right-aligned in [w] columns, filled with spaces. *)
Definition fmt_upper_hex (w : Z) (n : Z) : list Z :=
  let s := rev (hex_rev 16 n) in zrepeat 32 (w - zlen s) ++ s.

(** src/guid.rs 20-38 [Display]. *)
Definition guid_display (g : guid) : list Z :=
  fmt_upper_hex 8 (g1 g) ++ [45] ++ fmt_upper_hex 4 (g2 g) ++ [45] ++ fmt_upper_hex 4 (g3 g) ++ [45] ++
  flat_map (fmt_upper_hex 2) (ztake 2 (g4 g)) ++ [45] ++ flat_map (fmt_upper_hex 2) (zdrop 2 (g4 g)).
