(** What the signal-safe printf has to produce, stated on texts. *)
From Coq Require Import String Ascii.
From Verif Require Import Base StrSpec SigModel.
Open Scope Z_scope.
Open Scope list_scope.

(** The digits 0-9 and a-f. *)
Definition digit_char (d : Z) : Z :=
  nth (Z.to_nat d) [48; 49; 50; 51; 52; 53; 54; 55; 56; 57; 97; 98; 99; 100; 101; 102] 0.
(** The value of a list of digits in [base]. *)
Definition value (base : Z) (ds : list Z) : Z := fold_left (fun a d => base * a + d) ds 0.
(** [t] is the text of [n] in [base]: no leading zero except for zero itself. *)
Definition numeral (base n : Z) (t : list Z) : Prop :=
  exists ds, t = map digit_char ds /\ Forall (fun d => 0 <= d < base) ds /\ value base ds = n /\
    ds <> [] /\ (hd 0 ds = 0 -> ds = [0]).

(** The length modifier of width [w]: "", "l", "ll". *)
Definition modifier (w : Z) : list Z := repeat 108 (Z.to_nat (w - 1)).
(** The number of bits of an integer argument: int without a modifier ([w] = 1), long and long long. *)
Definition width (w : Z) : Z := if w =? 1 then 32 else 64.
(** The format [f] with arguments [a] renders as [t] and leaves the arguments [a']:
    %s, %u, %lu, %llu, %d, %ld, %lld, %p and %% as the header lists them. *)
Inductive renders : list Z -> list arg -> list Z -> list arg -> Prop :=
| r_end a : renders [] a [] a
| r_char c f a t a' : c <> 37 -> c <> 0 -> renders f a t a' -> renders (c :: f) a (c :: t) a'
| r_percent f a t a' : renders f a t a' -> renders (37 :: 37 :: f) a (37 :: t) a'
| r_string s tl f a t a' : nonul s -> renders f a t a' ->
    renders (37 :: 115 :: f) (AStr (Some (s ++ 0 :: tl)) :: a) (s ++ t) a'
| r_null f a t a' : renders f a t a' ->
    renders (37 :: 115 :: f) (AStr None :: a) ([40; 110; 117; 108; 108; 41] ++ t) a'
| r_unsigned w v d f a t a' : 1 <= w <= 3 -> 0 <= v < 2 ^ width w -> numeral 10 v d -> renders f a t a' ->
    renders (37 :: modifier w ++ 117 :: f) (AInt w v :: a) (d ++ t) a'
| r_signed w v d f a t a' : 1 <= w <= 3 -> 0 <= v < 2 ^ (width w - 1) -> numeral 10 v d -> renders f a t a' ->
    renders (37 :: modifier w ++ 100 :: f) (AInt w v :: a) (d ++ t) a'
| r_negative w v d f a t a' : 1 <= w <= 3 -> - 2 ^ (width w - 1) <= v < 0 -> v <> - 2 ^ 63 ->
    numeral 10 (- v) d -> renders f a t a' ->
    renders (37 :: modifier w ++ 100 :: f) (AInt w v :: a) (45 :: d ++ t) a'
| r_pointer v d f a t a' : 0 <= v < 2 ^ 64 -> numeral 16 v d -> renders f a t a' ->
    renders (37 :: 112 :: f) (APtr v :: a) (48 :: 120 :: d ++ t) a'.

(** What may follow a '%'. *)
Definition is_directive (d : list Z) : Prop :=
  d = [37] \/ d = [115] \/ d = [112] \/
  exists w c, 1 <= w <= 3 /\ (c = 117 \/ c = 100) /\ d = modifier w ++ [c].
(** No directive stands at the start of [l]. *)
Definition malformed (l : list Z) : Prop := forall d tl, is_directive d -> l <> d ++ tl.

(** The buffer after writing [t] at its start. *)
Definition overwrite (buf t : list Z) : list Z := t ++ skipn (length t) buf.

(** The bytes of a literal. *)
Definition text (s : string) : list Z := map (fun c => Z.of_nat (nat_of_ascii c)) (list_ascii_of_string s).
(** The name the handler prints for a signal. *)
Definition signal_name (sig : Z) : list Z :=
  if sig =? 2 then text "SIGINT" else if sig =? 15 then text "SIGTERM" else text "Shutdown signal".
(** The descriptor the shutdown handler logs to. *)
Definition log_to (s : sigs) : Z := if log_fd s =? -1 then 1 else log_fd s.
