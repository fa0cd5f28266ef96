(** Specification of the URI parser on texts. *)
From Verif Require Import Base CNum UriModel.

(** The parts of a URI.  The code can leave out pieces of the input: [skip1]
    before the port, [skip2] before the query. *)
Record parts := mk_parts {
  scheme : list Z; auth : bool; user : option (list Z); host : list Z; skip1 : list Z; port : option (list Z);
  path : list Z; skip2 : list Z; query : option (list Z); fragment : option (list Z) }.
(** An optional part with the delimiter before or behind it. *)
Definition before (d : Z) (o : option (list Z)) : list Z := match o with Some x => d :: x | None => [] end.
Definition followed (d : Z) (o : option (list Z)) : list Z := match o with Some x => x ++ [d] | None => [] end.
Definition part (o : option (list Z)) : list Z := match o with Some x => x | None => [] end.
(** scheme:[//[user@]host[:port]]path[?query][#fragment] *)
Definition compose (p : parts) : list Z :=
  scheme p ++ 58 :: (if auth p then [47; 47] else []) ++ followed 64 (user p) ++ host p ++ before 58 (port p) ++
  path p ++ before 63 (query p) ++ before 35 (fragment p).
(** The same with the pieces left out. *)
Definition source (p : parts) : list Z :=
  scheme p ++ 58 :: (if auth p then [47; 47] else []) ++ followed 64 (user p) ++ host p ++ skip1 p ++ before 58 (port p) ++
  path p ++ skip2 p ++ before 63 (query p) ++ before 35 (fragment p).
Definition fields (p : parts) : list (list Z) :=
  [scheme p; part (user p); host p; part (port p); path p; part (query p); part (fragment p)].

(** ** What is accepted as which parts *)
(** Up to the first character satisfying [p], and the rest. *)
Fixpoint until (p : Z -> bool) (l : list Z) : list Z * list Z :=
  match l with [] => ([], []) | c :: r => if p c then ([], l) else let '(a, b) := until p r in (c :: a, b) end.
(** What precedes and follows the first [d]. *)
Fixpoint cut_at (d : Z) (l : list Z) : option (list Z * list Z) :=
  match l with [] => None | c :: r => if c =? d then Some ([], r) else match cut_at d r with Some (a, b) => Some (c :: a, b) | None => None end end.
(** A number as strtoul takes it: its text, what follows, its value (None: out of range). *)
Definition number_cut (l : list Z) : list Z * list Z * option Z :=
  let '(sp, r) := until (fun c => negb (isspace c)) l in
  let '(sg, r) := sign r in
  let '(ds, r) := until (fun c => negb (isdigit c)) r in
  match ds with
  | [] => ([], l, Some 0)
  | _ => (sp ++ sg ++ ds, r, if dec ds <? 2^64 then Some (if match sg with [45] => true | _ => false end then u64 (- dec ds) else dec ds) else None)
  end.
(** Host: up to ']' when it starts with '[', else up to one of ":/?#". *)
Definition host_cut (l : list Z) : option (list Z * list Z) :=
  match l with
  | 91 :: _ => match cut_at 93 l with Some (h, r) => Some (h ++ [93], r) | None => None end
  | _ => Some (until (fun c => (c =? 58) || (c =? 47) || (c =? 63) || (c =? 35)) l)
  end.
(** Port: behind the next ':', a number of at most 65536. *)
Definition port_cut (l : list Z) : option (list Z * option (list Z) * list Z) :=
  match cut_at 58 l with
  | None => Some ([], None, l)
  | Some (skip, []) => None
  | Some (skip, r) =>
      let '(t, r, v) := number_cut r in
      match v with Some v => if v <=? 65536 then Some (skip, Some t, r) else None | None => None end
  end.
(** Path, query and fragment. *)
Definition tail_cut (l : list Z) : list Z * list Z * option (list Z) * option (list Z) :=
  let '(pa, r) := until (fun c => (c =? 63) || (c =? 35)) l in
  let '(skip, q, r) := match cut_at 63 r with
                       | Some (skip, r) => let '(q, r) := until (Z.eqb 35) r in (skip, Some q, r)
                       | None => ([], None, r)
                       end in
  (pa, skip, q, match r with _ :: f => Some f | [] => None end).
(** The whole. *)
Definition uri_parse (t : list Z) : option parts :=
  match cut_at 58 t with
  | None => None
  | Some (s, r) =>
      match r with
      | 47 :: 47 :: r =>
          let '(u, r) := match cut_at 64 r with Some (u, r) => (Some u, r) | None => (None, r) end in
          match host_cut r with
          | None => None
          | Some (h, r) =>
              match port_cut r with
              | None => None
              | Some (s1, po, r) =>
                  let '(pa, s2, q, f) := tail_cut r in
                  Some (mk_parts s true u h s1 po pa s2 q f)
              end
          end
      | _ => let '(pa, s2, q, f) := tail_cut r in Some (mk_parts s false None [] [] None pa s2 q f)
      end
  end.
(** The lengths fit an int. *)
Definition fits (p : parts) : bool := (zlen (compose p) <? 2^31) && (zlen (concat (fields p)) + 7 <? 2^31).

(** A NUL-terminated text at offset [o] of a block. *)
Definition text_at (m : list Z) (o : Z) (t : list Z) : Prop := exists a b, m = a ++ t ++ 0 :: b /\ o = zlen a.

(** The struct shows the parts: every pointer is at the text of its part. *)
Definition shows (u : uri) (p : parts) : Prop :=
  text_at (ubuf u) (ustr u) (compose p) /\ text_at (ubuf u) (uscheme u) (scheme p) /\ text_at (ubuf u) (uuser u) (part (user p)) /\
  text_at (ubuf u) (uhost u) (host p) /\ text_at (ubuf u) (uport u) (part (port p)) /\ text_at (ubuf u) (upath u) (path p) /\
  text_at (ubuf u) (uquery u) (part (query p)) /\ text_at (ubuf u) (ufragment u) (part (fragment p)).

(** ** Well-formed parts: nothing that could be taken for a delimiter. *)
Definition free (ds l : list Z) : Prop := forall d, In d ds -> ~ In d l.
Definition host_ok (h : list Z) : Prop :=
  (exists i, h = 91 :: i ++ [93] /\ ~ In 93 i) \/ (free [58; 47; 63; 35] h /\ forall r, h <> 91 :: r).
Definition port_ok (d : list Z) : Prop := d <> [] /\ Forall (fun c => isdigit c = true) d /\ dec d <= 65535.
Definition well_formed (p : parts) : Prop :=
  skip1 p = [] /\ skip2 p = [] /\ ~ In 58 (scheme p) /\ free [63; 35] (path p) /\
  match query p with Some q => ~ In 35 q | None => ~ In 63 (part (fragment p)) end /\
  (if auth p then
     (path p = [] \/ exists r, path p = 47 :: r) /\ host_ok (host p) /\
     (match port p with Some d => port_ok d | None => ~ In 58 (path p ++ part (query p) ++ part (fragment p)) end) /\
     match user p with Some u => ~ In 64 u
                     | None => ~ In 64 (host p ++ path p ++ part (query p) ++ part (fragment p)) end
   else user p = None /\ host p = [] /\ port p = None /\ forall r, path p <> 47 :: 47 :: r).
