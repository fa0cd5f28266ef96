(** Specification of the helpers of sc.c. *)
From Verif Require Import Base CNum ScModel.

(** ** Random bytes: RC4 on a table given as a function *)
Definition swap (S : Z -> Z) (a b x : Z) : Z := if x =? a then S b else if x =? b then S a else S x.
(** One byte: the state afterwards and the byte. *)
Definition rc4_step (i j : Z) (S : Z -> Z) : (Z * Z * (Z -> Z)) * Z :=
  let i := (i + 1) mod 256 in
  let j := (j + S i) mod 256 in
  let S := swap S i j in
  ((i, j, S), S ((S i + S j) mod 256)).
(** The first [n] bytes and the state after them. *)
Fixpoint rc4 (n : nat) (st : Z * Z * (Z -> Z)) : (Z * Z * (Z -> Z)) * list Z :=
  match n with
  | O => (st, [])
  | S n =>
      let '(i, j, T) := st in
      let '(st, z) := rc4_step i j T in
      let '(st, zs) := rc4 n st in (st, z :: zs)
  end.
(** Key scheduling from table [S] with key [K]: the first [n] steps. *)
Fixpoint schedule (K S : Z -> Z) (n : nat) : Z * (Z -> Z) :=
  match n with
  | O => (0, S)
  | Datatypes.S n =>
      let '(j, T) := schedule K S n in
      let j := (j + T (Z.of_nat n) + K (Z.of_nat n)) mod 256 in
      (j, swap T (Z.of_nat n) j)
  end.
(** The generator has_state this state. *)
Definition has_state (r : rand) (st : Z * Z * (Z -> Z)) : Prop :=
  let '(i, j, T) := st in
  ri r = i /\ rj r = j /\ 0 <= i < 256 /\ 0 <= j < 256 /\ zlen (rtab r) = 256 /\
  forall x, 0 <= x < 256 -> zget (rtab r) x = Some (T x).
(** The generator's table has the bytes of the seed, in some order. *)
Definition from_seed (seed : list Z) (r : rand) : Prop := Permutation (rtab r) (firstn 256 seed).
(** 256 or more bytes. *)
Definition seed_ok (seed : list Z) : Prop := 256 <= zlen seed /\ Forall (fun c => 0 <= c < 256) seed.
(** Consecutive calls of sc_rand_read, each filling a buffer: the generator and
    the buffers afterwards. *)
Fixpoint reads (r : rand) (bufs : list (list Z)) : res (rand * list (list Z)) :=
  match bufs with
  | [] => Ok (r, [])
  | b :: bufs =>
      let* (r, o) := rand_read r (Some b) (zlen b) in
      let* (r, l) := reads r bufs in
      Ok (r, match o with Some m => m :: l | None => l end)
  end.

(** ** Size strings *)

(** [s] starts with a decimal number [n] (spaces, sign, digits), followed by [r]. *)
Definition number (s : list Z) (n : Z) (r : list Z) : Prop :=
  exists sp sg ds, s = sp ++ sg ++ ds ++ r /\ ds <> [] /\
    Forall (fun c => isspace c = true) sp /\ Forall (fun c => isdigit c = true) ds /\
    (forall c r', r = c :: r' -> isdigit c = false) /\
    (n = dec ds /\ (sg = [] \/ sg = [43]) \/ n = - dec ds /\ sg = [45]).
(** Letters, in either case. *)
Definition letter (l c : Z) : bool := (c =? l) || (c =? l - 32).
(** b, k, m, g, t, p, e. *)
Definition unit_letter (c : Z) : option Z :=
  if letter 98 c then Some 1
  else if letter 107 c then Some 1024
  else if letter 109 c then Some (1024^2)
  else if letter 103 c then Some (1024^3)
  else if letter 116 c then Some (1024^4)
  else if letter 112 c then Some (1024^5)
  else if letter 101 c then Some (1024^6)
  else None.
(** What the code takes as a unit: nothing, a unit letter, a unit letter and b.
    (This includes "bb".) *)
Definition unit_of (r : list Z) : option Z :=
  match r with
  | [] => Some 1
  | [c] => unit_letter c
  | [c; d] => if letter 98 d then unit_letter c else None
  | _ => None
  end.
(** One or two characters are ASCII; of a longer rest only the length counts. *)
Definition plain_unit (r : list Z) : Prop := (length r <= 2)%nat -> forall c, In c r -> c < 128.

(** [t] is the decimal text of [n]: no leading zero except for zero. *)
Definition decimal (n : Z) (t : list Z) : Prop :=
  Forall (fun c => isdigit c = true) t /\ dec t = n /\ t <> [] /\ (hd 0 t = 48 -> t = [48]).
(** [t] is [h] / 100 with two decimals. *)
Definition decimal2 (h : Z) (t : list Z) : Prop :=
  exists w a b, t = w ++ [46; a; b] /\ decimal (h / 100) w /\
    isdigit a = true /\ isdigit b = true /\ dec [a; b] = h mod 100.
(** "KB" .. "EB" and their sizes. *)
Definition unit_names : list (list Z * Z) :=
  [([75; 66], 1024); ([77; 66], 1024^2); ([71; 66], 1024^3); ([84; 66], 1024^4); ([80; 66], 1024^5); ([69; 66], 1024^6)].
(** The text for [val] bytes: exact below 1024; above in a unit, with two
    decimals, off by less than 0.6 hundredths of the unit, between 1.00 and
    1023.95. *)
Definition size_text (val : Z) (t : list Z) : Prop :=
  (val < 1024 /\ exists w, decimal val w /\ t = w ++ [32; 66]) \/
  (1024 <= val /\ exists h w name u, decimal2 h w /\ t = w ++ [32] ++ name /\ In (name, u) unit_names /\
     100 <= h <= 102395 /\ 1024 * Z.abs (100 * val - h * u) <= 612 * u).
