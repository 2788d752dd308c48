(** * Specification: what is current and what is left over on a volume. *)
From Verif Require Import Base Dev Spec.

(** The content of a value of which the first [init] bytes have been written: the bytes behind these are zeros, whatever the
    clusters hold.  [stored] are the bytes in the clusters. *)
Definition current_content (init : Z) (stored : list Z) : list Z := ztake init stored ++ zrepeat 0 (zlen stored - init).

(** The attributes from [off] on, up to the end mark at [m]. *)
Inductive attrs_until (data : list Z) : Z -> list Z -> Z -> Prop :=
| au_end m : m + 4 <= zlen data -> end_marker data m -> attrs_until data m [] m
| au_attr off l m : ~ end_marker data off -> attr_fits data off -> attrs_until data (off + attr_len_at data off) l m ->
    attrs_until data off (off :: l) m.
