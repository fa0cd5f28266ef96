(** C169: the table printed by sc_perf_end. *)
From Verif Require Import Base Num CNum ScSpec ScProofs PerfDoubleModel PerfDoubleProps PerfTextModel.
From Coq Require Import ZifyBool String Ascii List.

(** ** Specification *)
(** A finite double that is not negative. *)
Definition counted (x : double) : Prop := valid_binary 53 1024 x = true /\ exists u, units x = Some u /\ 0 <= u.
(** The text is the number with two decimals, rounded to the nearest such number. *)
Definition shows (t : list Z) (x : double) : Prop :=
  exists h u, units x = Some u /\ decimal2 h t /\ 2 * Z.abs (h * 2 ^ 1074 - 100 * u) <= 2 ^ 1074.
(** Lines, each ended by a newline. *)
Definition is_lines (out : list Z) (ls : list (list Z)) : Prop :=
  out = concat (map (fun l => l ++ [10]) ls) /\ Forall (fun l => ~ In 10 l) ls.
(** Three cells between bars; the first bars stand in columns 0 and 28, and the third in column 49 if the value is below 10^15. *)
Definition is_row (name : list Z) (x : double) (last : list Z) (l : list Z) : Prop :=
  exists t a b, shows t x /\ l = lit "| " ++ name ++ repeat 32 a ++ lit " | " ++ t ++ repeat 32 b ++ lit " | " ++ last ++ lit "  " /\
    zget l 0 = Some 124 /\ zget l 28 = Some 124 /\ (forall u, units x = Some u -> u <= (10 ^ 15 - 1) * 2 ^ 1074 -> zget l 49 = Some 124).
(** The line of an event: its name, its value and the share in percent. *)
Definition is_event (l : list Z) (r : list Z * (double * double)) : Prop :=
  exists s, shows s (snd (snd r)) /\ is_row (fst r) (fst (snd r)) (lit "(" ++ s ++ lit "%)") l.
(** The events in the order of [PerfProps.expected]. *)
Definition event_names : list (list Z) :=
  map lit ["cpu-clock"; "task-clock"; "page-faults"; "context-switches"; "cpu-migrations"; "page-fault-minor";
           "cpu-cycles"; "instructions"; "cache-misses"; "L1D-read-miss"; "L1I-read-miss"]%string.

(** The title line, with bars in the same columns, and the rule below it. *)
Definition title : list Z := lit "| Event                     | Value              | Measurement time  ".
Definition rule : list Z := repeat 45 63.

(** ** Proofs *)
Lemma rounded_near n d : 0 < d -> 0 <= n -> 0 <= rounded n d /\ 2 * Z.abs (rounded n d * d - n) <= d.
Proof.
  intros Hd Hn. unfold rounded. pose proof (Z.div_mod n d ltac:(lia)) as E. pose proof (Z.mod_pos_bound n d Hd) as B.
  assert (Hq : 0 <= n / d) by (apply Z.div_pos; lia). set (q := n / d) in *. set (r := n mod d) in *. clearbody q r.
  destruct (Z.ltb_spec (2 * r) d); [|destruct (Z.ltb_spec d (2 * r)); [|destruct (Z.even q)]]; rewrite ?Z.mul_add_distr_r; split; try lia; nia.
Qed.
Lemma cents_near x u : valid_binary 53 1024 x = true -> units x = Some u -> 0 <= u ->
  0 <= cents x < 10 ^ 322 /\ 2 * Z.abs (cents x * 2 ^ 1074 - 100 * u) <= 2 ^ 1074.
Proof.
  intros V U Hu. destruct x as [s| | |s m e]; try discriminate U; injection U as <-; [cbn [cents]; lia|].
  cbn [valid_binary] in V. apply andb_true_iff in V as [Hc Hb]. apply Zeq_bool_eq in Hc. rewrite digits2 in Hc. unfold fexp, emin in Hc.
  apply Zle_bool_imp_le in Hb.
  assert (He : -1074 <= e <= 971) by lia. assert (Hm : Zpos m < 2 ^ 53) by (apply Z.log2_lt_pow2; lia).
  assert (Hp : 0 < 2 ^ (e + 1074)) by lia.
  destruct s; [exfalso; nia|]. cbn [cents]. destruct (Z.leb_spec 0 e) as [H|H].
  - split; [|replace (100 * (Zpos m * 2 ^ e) * 2 ^ 1074 - 100 * (Zpos m * 2 ^ (e + 1074))) with 0 by (rewrite Z.pow_add_r by lia; ring); lia].
    split; [lia|]. assert (A : 2 ^ e <= 2 ^ 971) by (apply Z.pow_le_mono_r; lia).
    assert (B : Zpos m * 2 ^ e <= 2 ^ 53 * 2 ^ 971) by (apply Z.mul_le_mono_nonneg; lia).
    assert (C : 100 * (2 ^ 53 * 2 ^ 971) < 10 ^ 322) by reflexivity. lia.
  - assert (Hd : 0 < 2 ^ (- e)) by lia. destruct (rounded_near (100 * Zpos m) (2 ^ (- e)) Hd ltac:(lia)) as [R0 R].
    set (h := rounded _ _) in *. clearbody h.
    assert (E2 : 2 ^ 1074 = 2 ^ (- e) * 2 ^ (e + 1074)) by (rewrite <- Z.pow_add_r by lia; f_equal; lia).
    split.
    + split; [exact R0|]. assert (1 <= 2 ^ (- e)) by lia. assert (h <= 100 * Zpos m + 1) by nia.
      assert (C : 100 * 2 ^ 53 + 1 < 10 ^ 322) by reflexivity. lia.
    + rewrite E2. replace (h * (2 ^ (- e) * 2 ^ (e + 1074)) - 100 * (Zpos m * 2 ^ (e + 1074))) with ((h * 2 ^ (- e) - 100 * Zpos m) * 2 ^ (e + 1074)) by ring.
      rewrite Z.abs_mul, (Z.abs_eq (2 ^ (e + 1074))) by lia. rewrite Z.mul_assoc. apply Z.mul_le_mono_nonneg_r; lia.
Qed.
Lemma fixed2_decimal x : 0 <= cents x < 10 ^ 322 -> decimal2 (cents x) (fixed2 x).
Proof.
  unfold fixed2. set (h := cents x). clearbody h. intros Hh. exists (digits 320 (h / 100)), (48 + h mod 100 / 10), (48 + h mod 10).
  assert (H1 : 0 <= h mod 100 / 10 < 10) by (Z.div_mod_to_equations; lia). assert (H2 : 0 <= h mod 10 < 10) by (apply Z.mod_pos_bound; lia).
  split; [reflexivity|]. split; [|split; [unfold isdigit; lia|split; [unfold isdigit; lia|]]].
  - apply digits_decimal; [|lia]. split; [apply Z.div_pos; lia|]. apply Z.div_lt_upper_bound; [lia|].
    change (100 * 10 ^ Z.of_nat 320) with (10 ^ 322). lia.
  - unfold dec. cbn [fold_left]. Z.div_mod_to_equations; lia.
Qed.
Lemma shows_fixed2 x : counted x -> shows (fixed2 x) x.
Proof.
  intros (V & u & U & Hu). destruct (cents_near x u V U Hu) as [B N]. exists (cents x), u. split; [exact U|]. split; [now apply fixed2_decimal|exact N].
Qed.
Lemma digits_len k : forall f n, 0 <= n < 10 ^ (Z.of_nat k + 1) -> zlen (digits f n) <= Z.of_nat k + 1.
Proof.
  induction k as [|k IH]; intros [|f] n Hn; cbn [digits]; try (unfold zlen; cbn [length]; lia); rewrite zlen_app, zlen_cons.
  - replace (n <? 10) with true by (cbn in Hn; lia). unfold zlen; cbn [length]; lia.
  - destruct (n <? 10); [unfold zlen; cbn [length]; lia|].
    specialize (IH f (n / 10)). unfold zlen in *. cbn [length] in *. rewrite Nat2Z.inj_succ in *.
    assert (0 <= n / 10 < 10 ^ (Z.of_nat k + 1)); [|lia]. split; [apply Z.div_pos; lia|]. apply Z.div_lt_upper_bound; [lia|].
    replace (10 * 10 ^ (Z.of_nat k + 1)) with (10 ^ (Z.succ (Z.of_nat k) + 1)); [lia|].
    replace (Z.succ (Z.of_nat k) + 1) with (Z.succ (Z.of_nat k + 1)) by lia. now rewrite Z.pow_succ_r by lia.
Qed.
Lemma fixed2_len x u : counted x -> units x = Some u -> u <= (10 ^ 15 - 1) * 2 ^ 1074 -> zlen (fixed2 x) <= 18.
Proof.
  intros (V & u' & U & Hu) U'. rewrite U in U'. injection U' as <-. intro Hle. destruct (cents_near x u' V U Hu) as [B N].
  assert (Hc : cents x < 10 ^ 17).
  { assert (H0 : 0 < 2 ^ 1074) by lia. set (w := 2 ^ 1074) in *. clearbody w. nia. }
  unfold fixed2. set (h := cents x) in *. clearbody h. rewrite zlen_app.
  assert (zlen (digits 320 (h / 100)) <= 15).
  { apply (digits_len 14). split; [apply Z.div_pos; lia|]. apply Z.div_lt_upper_bound; [lia|]. change (100 * 10 ^ (Z.of_nat 14 + 1)) with (10 ^ 17). lia. }
  unfold zlen in *. cbn [length]. lia.
Qed.
Lemma digits_no_nl t h : decimal2 h t -> ~ In 10 t.
Proof.
  intros (w & a & b & -> & (F & _) & Ha & Hb & _) Hi. unfold isdigit in *. apply in_app_or in Hi as [Hi|[Hi|[Hi|[Hi|[]]]]]; try lia.
  rewrite Forall_forall in F. specialize (F 10 Hi). discriminate F.
Qed.
Lemma blanks_no_nl n : ~ In 10 (repeat 32 n).
Proof. intro H. apply repeat_spec in H. discriminate H. Qed.
(** A line as the model builds it. *)
Lemma row_ok name x last : counted x -> zlen name <= 25 -> ~ In 10 name -> ~ In 10 last ->
  exists l, table_line name (fixed2 x) last = l ++ [10] /\ ~ In 10 l /\ is_row name x last l.
Proof.
  intros Hx Hn Hnl Hll. pose proof (shows_fixed2 x Hx) as Hs.
  exists (lit "| " ++ padded 25 name ++ lit " | " ++ padded 18 (fixed2 x) ++ lit " | " ++ last ++ lit "  ").
  split; [unfold table_line; now rewrite !app_assoc_reverse|]. unfold padded.
  assert (Hp : zlen (name ++ repeat 32 (Z.to_nat (25 - zlen name))) = 25) by (unfold zlen in *; rewrite app_length, repeat_length; lia).
  split.
  - destruct Hs as (h & u & _ & Hd & _). pose proof (digits_no_nl _ _ Hd) as Hf. pose proof (blanks_no_nl (Z.to_nat (25 - zlen name))) as H1.
    pose proof (blanks_no_nl (Z.to_nat (18 - zlen (fixed2 x)))) as H2. set (F := fixed2 x) in *. clearbody F. set (S1 := repeat _ _) in *. set (S2 := repeat 32 (Z.to_nat (18 - zlen F))) in *.
    clearbody S1 S2. clear - Hf H1 H2 Hnl Hll. rewrite !in_app_iff. cbn. intuition discriminate.
  - exists (fixed2 x), (Z.to_nat (25 - zlen name)), (Z.to_nat (18 - zlen (fixed2 x))). split; [exact Hs|]. split; [now rewrite !app_assoc_reverse|].
    split; [reflexivity|]. split.
    + rewrite app_assoc. rewrite zget_app2; [|rewrite zlen_app, Hp; cbn; lia]. rewrite zlen_app, Hp. reflexivity.
    + intros u U Hu. pose proof (fixed2_len x u Hx U Hu) as Hl.
      assert (Hq : zlen (fixed2 x ++ repeat 32 (Z.to_nat (18 - zlen (fixed2 x)))) = 18) by (unfold zlen in *; rewrite app_length, repeat_length; lia).
      set (A := name ++ _) in *. set (B := fixed2 x ++ _) in *. clearbody A B.
      replace (lit "| " ++ A ++ lit " | " ++ B ++ lit " | " ++ last ++ lit "  ") with ((lit "| " ++ A ++ lit " | " ++ B) ++ lit " | " ++ last ++ lit "  ") by (now rewrite !app_assoc_reverse).
      rewrite zget_app2; rewrite !zlen_app, Hp, Hq; [reflexivity|cbn; lia].
Qed.

(** The table: an empty line, the titles, a rule, the time, and a line for every event with its name, value and share, all rounded to the
    nearest hundredth. *)
Theorem perf_table seconds rows : counted seconds -> length rows = 11%nat -> Forall (fun r => counted (fst r) /\ counted (snd r)) rows ->
  exists time ls, is_lines (table seconds rows) ([] :: title :: rule :: time :: ls) /\
    is_row (lit "time (seconds)") seconds (lit "(100,00%)") time /\ Forall2 is_event ls (combine event_names rows).
Proof.
  intros Hs Hl Hr. destruct (row_ok (lit "time (seconds)") seconds (lit "(100,00%)") Hs) as (time & Et & Nt & Rt); [discriminate|cbn; intuition discriminate|cbn; intuition discriminate|].
  assert (He : forall nr, In nr (combine perf_names rows) -> exists l,
            table_line (fst nr) (fixed2 (fst (snd nr))) (lit "(" ++ fixed2 (snd (snd nr)) ++ lit "%)") = l ++ [10] /\ ~ In 10 l /\ is_event l nr).
  { intros [n [v s]] Hin. pose proof (in_combine_l _ _ _ _ Hin) as H1. pose proof (in_combine_r _ _ _ _ Hin) as H2.
    rewrite Forall_forall in Hr. destruct (Hr _ H2) as [Cv Cs]. cbn [fst snd] in *.
    assert (Hn : zlen n <= 25 /\ ~ In 10 n).
    { cbn [perf_names In] in H1. repeat (destruct H1 as [<-|H1]; [split; [discriminate|cbn; intuition discriminate]|]). destruct H1. }
    pose proof (shows_fixed2 s Cs) as Ss.
    destruct (row_ok n v (lit "(" ++ fixed2 s ++ lit "%)") Cv (proj1 Hn) (proj2 Hn)) as (l & E & N & R).
    - destruct Ss as (h & u & _ & Hd & _). pose proof (digits_no_nl _ _ Hd) as Hf. set (F := fixed2 s) in *. clearbody F. clear - Hf. rewrite !in_app_iff. cbn. intuition discriminate.
    - exists l. split; [exact E|]. split; [exact N|]. exists (fixed2 s). cbn [fst snd]. split; [exact Ss|exact R]. }
  assert (Hc : exists ls, concat (map (fun r => table_line (fst r) (fixed2 (fst (snd r))) (lit "(" ++ fixed2 (snd (snd r)) ++ lit "%)")) (combine perf_names rows))
               = concat (map (fun l => l ++ [10]) ls) /\ Forall (fun l => ~ In 10 l) ls /\ Forall2 is_event ls (combine perf_names rows)).
  { clear - He. induction (combine perf_names rows) as [|nr t IH]; [exists []; repeat constructor|].
    destruct (He nr (or_introl eq_refl)) as (l & E & N & R). destruct IH as (ls & E' & N' & R'); [intros; apply He; now right|].
    exists (l :: ls). cbn [map concat]. rewrite E, E'. repeat split; constructor; assumption. }
  destruct Hc as (ls & Ec & Nc & Rc).
  exists time, ls.
  split; [|split; [exact Rt|exact Rc]]. split.
  - unfold table. rewrite Et, Ec. cbn [map concat]. reflexivity.
  - repeat constructor; try assumption; try (cbn; intuition discriminate).
Qed.
Print Assumptions perf_table.
Example perf_table_ex : let rows := repeat (dbl 7, ddiv (dbl 1) (dbl 3)) 11 in
  counted (ddiv (dbl 2345678901) (dbl 1000000000)) /\ length rows = 11%nat /\ Forall (fun r => counted (fst r) /\ counted (snd r)) rows /\
  firstn 64 (skipn 134 (table (ddiv (dbl 2345678901) (dbl 1000000000)) rows)) = lit "
| time (seconds)            | 2.35               | (100,00%)  
" /\ fixed2 (ddiv (dbl 1) (dbl 3)) = lit "0.33".
Proof.
  assert (C : forall x, valid_binary 53 1024 x && match units x with Some u => 0 <=? u | None => false end = true -> counted x).
  { intros x H. apply andb_true_iff in H as [V U]. split; [exact V|]. destruct (units x) as [u|]; [|discriminate]. exists u. split; [reflexivity|lia]. }
  cbv zeta. split; [apply C; vm_compute; reflexivity|]. split; [reflexivity|]. split.
  - apply Forall_forall. intros r Hr. apply repeat_spec in Hr as ->. split; apply C; vm_compute; reflexivity.
  - split; vm_compute; reflexivity.
Qed.

Lemma counted_dbl v : 0 <= v < 2 ^ 53 -> counted (dbl v) /\ units (dbl v) = Some (v * 2 ^ 1074).
Proof.
  intros Hv. destruct (Z.eq_dec v 0) as [->|Hne]; [split; [split; [reflexivity|exists 0; split; [reflexivity|lia]]|reflexivity]|].
  assert (Hl : Z.log2 v <= 52) by (assert (Z.log2 v < 53) by (apply Z.log2_lt_pow2; lia); lia). pose proof (Z.log2_nonneg v) as H0.
  destruct (dbl_small v) as (m & -> & Hm); [lia|exact Hl|].
  assert (U : units (S754_finite false m (Z.log2 v - 52)) = Some (v * 2 ^ 1074)).
  { cbn [units]. rewrite Hm. rewrite <- Z.mul_assoc, <- Z.pow_add_r by lia. do 3 f_equal. lia. }
  split; [|exact U]. split; [|exists (v * 2 ^ 1074); split; [exact U|apply Z.mul_nonneg_nonneg; lia]].
  cbn [valid_binary]. assert (L : Z.log2 (Zpos m) = 52) by (rewrite Hm, <- Z.shiftl_mul_pow2 by lia; rewrite Z.log2_shiftl by lia; lia).
  unfold bounded, canonical_mantissa. rewrite digits2, L, fexp_big by lia. apply andb_true_iff. split; [apply Zeq_is_eq_bool; lia|apply Zle_imp_le_bool; lia].
Qed.
Lemma shows_whole t v : 0 <= v < 2 ^ 53 -> shows t (dbl v) -> exists w, decimal v w /\ t = w ++ lit ".00".
Proof.
  intros Hv (h & u & U & (w & a & b & -> & D & Ha & Hb & E) & N). rewrite (proj2 (counted_dbl v Hv)) in U. assert (U' : u = v * 2 ^ 1074) by congruence. clear U. subst u.
  assert (Hh : h = 100 * v).
  { assert (H0 : 1 < 2 ^ 1074) by reflexivity. revert N H0. generalize (2 ^ 1074) as q. intros q N H0. replace (h * q - 100 * (v * q)) with ((h - 100 * v) * q) in N by ring.
    rewrite Z.abs_mul, (Z.abs_eq q) in N by lia. nia. }
  subst h. rewrite (Z.mul_comm 100), Z.div_mul in D by lia. rewrite (Z.mul_comm 100), Z.mod_mul in E by lia.
  exists w. split; [exact D|]. unfold dec in E. cbn [fold_left] in E. unfold isdigit in *. assert (a = 48) by lia. assert (b = 48) by lia. subst. reflexivity.
Qed.
(** Rounding numbers of 53 bits or more, quotients and products give finite doubles. *)
Lemma round_fits q e lx : 2 ^ 52 <= q < 2 ^ 110 -> -700 <= e <= 700 ->
  exists m e', binary_round_aux 53 1024 false q e lx = S754_finite false m e' /\ Z.log2 (Zpos m) = 52 /\ e <= e' <= e + 60.
Proof.
  intros Hq He. assert (Hl : exists k, 0 <= k < 58 /\ Z.log2 q = 52 + k).
  { exists (Z.log2 q - 52). assert (52 <= Z.log2 q) by (apply Z.log2_le_pow2; lia). assert (Z.log2 q < 110) by (apply Z.log2_lt_pow2; lia). lia. }
  destruct Hl as (k & Hk & Hlog). destruct q as [|q|q]; try lia.
  assert (S1 : exists r, shr_fexp 53 1024 (Zpos q) e lx = (r, e + k) /\ 2 ^ 52 <= shr_m r < 2 ^ 53).
  { unfold shr_fexp. cbn [Zdigits2]. rewrite digits2, Hlog, fexp_big by lia. replace (52 + k + 1 + e - 53 - e) with k by lia.
    pose proof (Z.log2_spec (Zpos q) ltac:(lia)) as Hs. rewrite Hlog in Hs.
    assert (M0 : shr_m (shr_record_of_loc (Zpos q) lx) = Zpos q) by (destruct lx as [|[]]; reflexivity).
    destruct k as [|k|k]; try lia.
    - eexists. split; [cbn [shr]; rewrite Z.add_0_r; reflexivity|]. rewrite M0. cbn in Hs. lia.
    - eexists. split; [cbn [shr]; reflexivity|]. rewrite shr_iter_m by (rewrite M0; lia). rewrite M0.
      replace (Z.succ (52 + Z.pos k)) with (53 + Z.pos k) in Hs by lia. rewrite !Z.pow_add_r in Hs by lia.
      split; [apply Z.div_le_lower_bound; lia|apply Z.div_lt_upper_bound; lia]. }
  destruct S1 as (r & E1 & Hb). unfold binary_round_aux. rewrite E1.
  set (z := round_nearest_even (shr_m r) (loc_of_shr_record r)).
  assert (Hz : 2 ^ 52 <= z <= 2 ^ 53).
  { unfold z, round_nearest_even. destruct (loc_of_shr_record r) as [|[]]; try lia. destruct (Z.even _); lia. }
  clearbody z. destruct (Z.eq_dec z (2 ^ 53)) as [->|Hne].
  - unfold shr_fexp. change (Zdigits2 (2 ^ 53)) with 54. rewrite fexp_big by lia.
    replace (54 + (e + k) - 53 - (e + k)) with 1 by lia. cbn [shr iter_pos].
    change (shr_m (shr_1 (shr_record_of_loc (2 ^ 53) loc_Exact))) with (2 ^ 52). change (2 ^ 52) with (Zpos 4503599627370496). cbv iota.
    rewrite Zle_imp_le_bool by lia. do 2 eexists. split; [reflexivity|]. split; [reflexivity|]. lia.
  - destruct z as [|z|z]; try lia. assert (L : Z.log2 (Zpos z) = 52) by (apply Z.log2_unique; lia).
    unfold shr_fexp. cbn [Zdigits2 shr_record_of_loc]. rewrite digits2, L, fexp_big by lia.
    replace (52 + 1 + (e + k) - 53 - (e + k)) with 0 by lia. cbn [shr shr_m].
    rewrite Zle_imp_le_bool by lia. do 2 eexists. split; [reflexivity|]. split; [exact L|]. lia.
Qed.
Lemma ddiv_fits m1 e1 m2 e2 : Z.log2 (Zpos m1) = 52 -> Z.log2 (Zpos m2) = 52 -> -300 <= e1 <= 300 -> -300 <= e2 <= 300 ->
  exists m e, ddiv (S754_finite false m1 e1) (S754_finite false m2 e2) = S754_finite false m e /\ Z.log2 (Zpos m) = 52 /\ e1 - e2 - 53 <= e <= e1 - e2 + 7.
Proof.
  intros L1 L2 H1 H2. unfold ddiv, SFdiv, SFdiv_core_binary. cbn [Zdigits2]. rewrite !digits2, L1, L2.
  replace (52 + 1 + e1 - (52 + 1 + e2)) with (e1 - e2) by lia. rewrite fexp_big by lia.
  replace (Z.min (e1 - e2 - 53) (e1 - e2)) with (e1 - e2 - 53) by lia. replace (e1 - e2 - (e1 - e2 - 53)) with 53 by lia. cbv iota.
  rewrite Z.shiftl_mul_pow2 by lia.
  pose proof (Z.log2_spec (Zpos m1) ltac:(lia)) as B1. pose proof (Z.log2_spec (Zpos m2) ltac:(lia)) as B2. rewrite L1 in B1. rewrite L2 in B2. cbn in B1, B2.
  pose proof (Z_div_mod (Zpos m1 * 2 ^ 53) (Zpos m2) ltac:(lia)) as D. destruct (Z.div_eucl (Zpos m1 * 2 ^ 53) (Zpos m2)) as [q r]. destruct D as [D R].
  change (2 ^ 53) with 9007199254740992 in D. cbn [xorb].
  destruct (round_fits q (e1 - e2 - 53) (new_location (Zpos m2) r) ) as (m & e & E & L & B).
  - change (2 ^ 52) with 4503599627370496. change (2 ^ 110) with 1298074214633706907132624082305024. set (b := Zpos m2) in *. set (a := Zpos m1) in *. clearbody a b. nia.
  - lia.
  - exists m, e. split; [exact E|]. split; [exact L|lia].
Qed.
Lemma dmul_fits m1 e1 m2 e2 : Z.log2 (Zpos m1) = 52 -> Z.log2 (Zpos m2) = 52 -> -300 <= e1 <= 300 -> -300 <= e2 <= 300 ->
  exists m e, dmul (S754_finite false m1 e1) (S754_finite false m2 e2) = S754_finite false m e /\ Z.log2 (Zpos m) = 52 /\ e1 + e2 <= e <= e1 + e2 + 60.
Proof.
  intros L1 L2 H1 H2. unfold dmul, SFmul. cbn [xorb].
  pose proof (Z.log2_spec (Zpos m1) ltac:(lia)) as B1. pose proof (Z.log2_spec (Zpos m2) ltac:(lia)) as B2. rewrite L1 in B1. rewrite L2 in B2. cbn in B1, B2.
  apply round_fits; [|lia]. rewrite Pos2Z.inj_mul. change (2 ^ 52) with 4503599627370496. change (2 ^ 110) with 1298074214633706907132624082305024.
  set (b := Zpos m2) in *. set (a := Zpos m1) in *. clearbody a b. nia.
Qed.
Lemma counted_fits m e : Z.log2 (Zpos m) = 52 -> -900 <= e <= 900 -> counted (S754_finite false m e).
Proof.
  intros L He. split; [|eexists; split; [reflexivity|apply Z.mul_nonneg_nonneg; lia]].
  cbn [valid_binary]. unfold bounded, canonical_mantissa. rewrite digits2, L, fexp_big by lia. apply andb_true_iff. split; [apply Zeq_is_eq_bool; lia|apply Zle_imp_le_bool; lia].
Qed.
Lemma seconds_counted total : 0 <= total < 2 ^ 64 -> counted (ddiv (dbl total) (dbl 1000000000)).
Proof.
  intros Ht. destruct (Z.eq_dec total 0) as [->|Hne]; [split; [reflexivity|exists 0; split; [reflexivity|lia]]|].
  destruct (dbl_finite total) as (m1 & e1 & -> & L1 & B1); [lia|]. destruct (dbl_finite 1000000000) as (m2 & e2 & -> & L2 & B2); [lia|].
  destruct (ddiv_fits m1 e1 m2 e2 L1 L2) as (m & e & -> & L & B); [lia|lia|]. apply counted_fits; [exact L|lia].
Qed.
Lemma counted_zero : counted (S754_zero false).
Proof. split; [reflexivity|]. exists 0. split; [reflexivity|lia]. Qed.
Lemma printed_counted v enabled run : 0 <= v < 2 ^ 64 -> 0 <= enabled < 2 ^ 64 -> 0 <= run < 2 ^ 64 ->
  counted (fst (dprinted (v, enabled, run))) /\ counted (snd (dprinted (v, enabled, run))).
Proof.
  intros Hv He Hr. unfold dprinted, dread.
  assert (D : forall n m e, n = S754_finite false m e -> Z.log2 (Zpos m) = 52 -> -200 <= e <= 200 -> counted (dadd dzero (dmul (dbl v) n))).
  { intros n m e -> L B. destruct (Z.eq_dec v 0) as [->|Hne]; [exact counted_zero|].
    destruct (dbl_finite v) as (m1 & e1 & -> & L1 & B1); [lia|]. destruct (dmul_fits m1 e1 m e L1 L) as (m2 & e2 & -> & L2 & B2); [lia|lia|].
    change (counted (S754_finite false m2 e2)). apply counted_fits; [exact L2|lia]. }
  destruct ((enabled >? 0) && (run >? 0)) eqn:E; cbn [fst snd].
  - destruct (dbl_finite run) as (m1 & e1 & -> & L1 & B1); [lia|]. destruct (dbl_finite enabled) as (m2 & e2 & -> & L2 & B2); [lia|].
    destruct (ddiv_fits m1 e1 m2 e2 L1 L2) as (m & e & -> & L & B); [lia|lia|]. split; [apply (D _ m e eq_refl L); lia|].
    destruct (dbl_finite 100) as (m3 & e3 & -> & L3 & B3); [lia|]. destruct (dmul_fits m e m3 e3 L L3) as (m4 & e4 & -> & L4 & B4); [lia|lia|].
    apply counted_fits; [exact L4|lia].
  - destruct (dbl_finite 1) as (m1 & e1 & E1 & L1 & B1); [lia|]. split; [apply (D _ m1 e1 E1 L1); lia|exact counted_zero].
Qed.
(** Whatever the counters and the clock say: the table has the time and a line for every event with the numbers of C160. *)
Theorem perf_table_all total rs : 0 <= total < 2 ^ 64 -> length rs = 11%nat ->
  Forall (fun r => 0 <= fst (fst r) < 2 ^ 64 /\ 0 <= snd (fst r) < 2 ^ 64 /\ 0 <= snd r < 2 ^ 64) rs ->
  exists time ls, is_lines (perf_printed total rs) ([] :: title :: rule :: time :: ls) /\
    is_row (lit "time (seconds)") (ddiv (dbl total) (dbl 1000000000)) (lit "(100,00%)") time /\
    Forall2 is_event ls (combine event_names (map dprinted rs)).
Proof.
  intros Ht Hl Hr. apply perf_table; [now apply seconds_counted|now rewrite map_length|].
  apply Forall_forall. intros d Hd. apply in_map_iff in Hd as ([[v en] run] & <- & Hin). rewrite Forall_forall in Hr. destruct (Hr _ Hin) as (A & B & C).
  now apply printed_counted.
Qed.
Print Assumptions perf_table_all.
Example perf_table_all_ex : let rs := repeat (2 ^ 64 - 1, 9, 2) 11 in length rs = 11%nat /\
  Forall (fun r => 0 <= fst (fst r) < 2 ^ 64 /\ 0 <= snd (fst r) < 2 ^ 64 /\ 0 <= snd r < 2 ^ 64) rs /\
  firstn 69 (skipn 198 (perf_printed (2 ^ 64 - 1) rs)) = lit "| cpu-clock                 | 4099276460824344576.00 | (22.22%)  
| t".
Proof.
  cbv zeta. split; [reflexivity|]. split.
  - apply Forall_forall. intros r Hr. apply repeat_spec in Hr as ->. cbn [fst snd]. lia.
  - vm_compute. reflexivity.
Qed.
(** Counters that ran all the time and counted less than 2^53: the lines say the events' names, their counts and 100.00%. *)
Theorem perf_table_counts total (vs : list (Z * Z)) : 0 <= total < 2 ^ 64 -> length vs = 11%nat ->
  Forall (fun v => 0 <= fst v < 2 ^ 53 /\ 0 < snd v < 2 ^ 64) vs ->
  exists time ls, is_lines (perf_printed total (map (fun v => (fst v, snd v, snd v)) vs)) ([] :: title :: rule :: time :: ls) /\
    is_row (lit "time (seconds)") (ddiv (dbl total) (dbl 1000000000)) (lit "(100,00%)") time /\
    Forall2 (fun l nv => exists c p a b, decimal (fst (snd nv)) c /\ decimal 100 p /\
      l = lit "| " ++ fst nv ++ repeat 32 a ++ lit " | " ++ c ++ lit ".00" ++ repeat 32 b ++ lit " | (" ++ p ++ lit ".00%)  ") ls (combine event_names vs).
Proof.
  intros Ht Hl Hv. pose proof (seconds_counted total Ht) as Hs. unfold perf_printed. rewrite map_map.
  assert (Em : map (fun v => dprinted (fst v, snd v, snd v)) vs = map (fun v => (dbl (fst v), dbl 100)) vs).
  { apply map_ext_in. intros v Hin. rewrite Forall_forall in Hv. destruct (Hv v Hin). apply printed_all; lia. }
  rewrite Em. destruct (perf_table (ddiv (dbl total) (dbl 1000000000)) (map (fun v => (dbl (fst v), dbl 100)) vs) Hs) as (time & ls & L & T & F).
  - now rewrite map_length.
  - apply Forall_forall. intros r Hr. apply in_map_iff in Hr as (v & <- & Hin). rewrite Forall_forall in Hv. destruct (Hv v Hin). cbn [fst snd].
    split; apply counted_dbl; lia.
  - exists time, ls. split; [exact L|]. split; [exact T|]. clear L T Hs Em Hl. revert ls F. generalize event_names as names.
    induction vs as [|v vs IH]; intros [|n names] ls F; cbn [map combine] in *; inversion F; subst; try constructor.
    + inversion Hv as [|? ? [Hv1 _] _]; subst. match goal with H : is_event _ _ |- _ => destruct H as (s & S1 & t & a & b & S2 & E & _) end. cbn [fst snd] in *.
      destruct (shows_whole s 100 ltac:(lia) S1) as (p & Dp & ->). destruct (shows_whole t (fst v) Hv1 S2) as (c & Dc & ->).
      exists c, p, a, b. split; [exact Dc|]. split; [exact Dp|]. rewrite E. rewrite !app_assoc_reverse. reflexivity.
    + inversion Hv; subst. now apply IH.
Qed.
Print Assumptions perf_table_counts.
Example perf_table_counts_ex : let vs := repeat (1234, 500) 11 in
  0 <= 5 < 2 ^ 64 /\ length vs = 11%nat /\ Forall (fun v => 0 <= fst v < 2 ^ 53 /\ 0 < snd v < 2 ^ 64) vs /\
  firstn 66 (skipn 198 (perf_printed 5 (map (fun v => (fst v, snd v, snd v)) vs))) = lit "| cpu-clock                 | 1234.00            | (100.00%)  
| t".
Proof.
  cbv zeta. split; [lia|]. split; [reflexivity|]. split.
  - apply Forall_forall. intros r Hr. apply repeat_spec in Hr as ->. cbn [fst snd]. lia.
  - vm_compute. reflexivity.
Qed.
