(** Counting version of the heap's two loops (heap/sc_heap.c): the functions of
    HeapModel.v, which also count the comparisons of two keys. *)
From Verif Require Import Base HeapModel.

Section Cost.
Context {D : Type}.

(** heap/sc_heap.c:99-105: the loop of [sift_up]; line 99 compares keys unless
    [i] is 1. *)
Fixpoint sift_up_c (fuel : nat) (e : list (option (item D))) (i : Z) (x : item D) (n : Z)
  : res (list (option (item D)) * Z) :=
  match fuel with
  | O => Fuel
  | S f =>
      if i =? 1 then let* e := zput e i (Some x) in Ok (e, n)
      else
        let* p := zread e (i / 2) in
        if fst x <? fst p then
          let* e' := zput e i (Some p) in
          sift_up_c f e' (i / 2) x (n + 1)
        else let* e := zput e i (Some x) in Ok (e, n + 1)
  end.

(** heap/sc_heap.c:80-108 [sc_heap_add] with the number of comparisons. *)
Definition heap_add_c (lim : Z) (h : heap D) (key : Z) (data : D) (ok : bool) : res (heap D * bool * Z) :=
  let size := u64 (hsize h + 1) in
  let finish cap e :=
    let* (e', n) := sift_up_c (S (Z.to_nat size)) e size (key, data) 0 in
    Ok (mk_heap cap size e', true, n) in
  if hcap h <=? size then
    let cap := if hcap h =? 0 then 4 else u64 (hcap h * 2) in
    let m := u64 (u64 (cap * 2) * 16) in
    if (heap_max / 2 <=? hcap h) || negb (granted lim ok m)
    then Ok (mk_heap (hcap h) size (helems h), false, 0)
    else finish cap (realloc_block (helems h) m 16)
  else finish (hcap h) (helems h).

(** heap/sc_heap.c:133-149: the loop of [sift_down]; lines 134-135 compare two
    children, line 139 compares a child with the last item. *)
Fixpoint sift_down_c (fuel : nat) (e : list (option (item D))) (i child n : Z) (last : item D) (k : Z)
  : res (list (option (item D)) * Z) :=
  match fuel with
  | O => Fuel
  | S f =>
      if child <=? n then
        let* (c, k) := (if child <? n then
                          let* a := zread e child in
                          let* b := zread e (child + 1) in
                          Ok (if fst b <? fst a then child + 1 else child, k + 1)
                        else Ok (child, k)) in
        let* v := zread e c in
        if fst last <=? fst v then let* e := zput e i (Some last) in Ok (e, k + 1)
        else
          let* e' := zput e i (Some v) in
          sift_down_c f e' c (u64 (c * 2)) n last (k + 1)
      else let* e := zput e i (Some last) in Ok (e, k)
  end.

(** heap/sc_heap.c:120-152 [sc_heap_pop] with the number of comparisons. *)
Definition heap_pop_c (h : heap D) : res (heap D * option (item D) * Z) :=
  if hsize h =? 0 then Ok (h, None, 0)
  else
    let* top := zread (helems h) 1 in
    let* e := zput (helems h) 0 (Some top) in
    let* last := zread e (hsize h) in
    let n := hsize h - 1 in
    let* (e', k) := sift_down_c (S (Z.to_nat n)) e 1 2 n last 0 in
    let* r := zread e' 0 in
    Ok (mk_heap (hcap h) n e', Some r, k).

(** Adds of a list of items, one after the other, with the sum of the
    comparisons (the user's program).  (heap/sc_heap.c:80-108.) *)
Fixpoint add_all_c (lim : Z) (h : heap D) (l : list (item D)) : res (heap D * bool * Z) :=
  match l with
  | [] => Ok (h, true, 0)
  | (k, d) :: r =>
      let* (h', ok, n) := heap_add_c lim h k d true in
      let* (h2, ok2, n2) := add_all_c lim h' r in
      Ok (h2, ok && ok2, n + n2)
  end.

(** [n] pops with the sum of the comparisons (the user's program).
    (heap/sc_heap.c:120-152.) *)
Fixpoint pop_n_c (n : nat) (h : heap D) : res (heap D * list (option (item D)) * Z) :=
  match n with
  | O => Ok (h, [], 0)
  | S n' =>
      let* (h', o, k) := heap_pop_c h in
      let* (h2, os, k2) := pop_n_c n' h' in
      Ok (h2, o :: os, k + k2)
  end.
End Cost.
