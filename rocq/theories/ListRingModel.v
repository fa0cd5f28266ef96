(** Model of uses of linked-list/sc_list.h:40-43 other than by its functions. *)
From Verif Require Import Base ListModel.

(** C assignment of a struct sc_list, as in [*dst = *src] (linked-list/sc_list.h:40-43): both pointers are
    copied.  The storage at [dst] may be uninitialised before. *)
Definition list_assign (m : mem) (dst src : node) : res mem :=
  let* n := nxt m src in let* p := prv m src in Ok (upd m dst (Some (n, p))).
