(** C63, C74: time/sc_time.c. *)
From Verif Require Import Base Num TimeModel.

(** The nanoseconds of a timespec. *)
Definition ns_of (ts : Z * Z) : Z := fst ts * 1000000000 + snd ts.
(** A timespec as clock_gettime returns it. *)
Definition clock (ts : Z * Z) : Prop := 0 <= fst ts /\ 0 <= snd ts < 1000000000.
(** A call takes no negative time and reports an interruption as such. *)
Definition nap_ok (n : nap) : Prop :=
  match n with Whole over => 0 <= over | Interrupted s => 0 <= s | Failed err => err <> EINTR end.

Lemma nanosleep_ok t n : clock t -> nanosleep t n =
  match n with
  | Whole over => (0, 0, (0, 0), ns_of t + over)
  | Interrupted slept =>
      let left := if slept <? ns_of t then ns_of t - slept else 0 in
      (-1, EINTR, (left / 1000000000, left mod 1000000000), slept)
  | Failed err => (-1, err, (0, 0), 0)
  end.
Proof.
  intros [H1 H2]. unfold nanosleep. destruct (Z.ltb_spec (fst t) 0); [lia|]. destruct (Z.ltb_spec (snd t) 0); [lia|].
  rewrite Z.geb_leb. destruct (Z.leb_spec 1000000000 (snd t)); [lia|]. reflexivity.
Qed.
Lemma split_ns n : 0 <= n -> clock (n / 1000000000, n mod 1000000000) /\ ns_of (n / 1000000000, n mod 1000000000) = n.
Proof. intro H. unfold clock, ns_of. cbn [fst snd]. Z.div_mod_to_equations. lia. Qed.
Lemma sleep_loop_ok ns : Forall nap_ok ns -> forall rem spent rc d, clock rem ->
  sleep_loop rem ns spent = Ok (rc, d) -> rc = 0 -> spent + ns_of rem <= d.
Proof.
  induction 1 as [|n ns Hn Hns IH]; intros rem spent rc d Hc E Hrc; [discriminate E|].
  cbn [sleep_loop] in E. rewrite (nanosleep_ok rem n Hc) in E. destruct n as [over|slept|err]; cbn in Hn.
  - cbn in E. injection E as <- <-. lia.
  - cbv zeta in E. cbn [Z.eqb negb andb EINTR Pos.eqb] in E.
    set (left := if slept <? ns_of rem then ns_of rem - slept else 0) in *.
    assert (Hl : 0 <= left /\ ns_of rem <= left + slept) by (unfold left; destruct (Z.ltb_spec slept (ns_of rem)); lia).
    destruct (split_ns left ltac:(lia)) as [C1 C2]. specialize (IH _ _ _ _ C1 E Hrc). lia.
  - cbn [Z.eqb negb andb] in E. rewrite (proj2 (Z.eqb_neq err EINTR) Hn) in E. injection E as <- <-. discriminate Hrc.
Qed.
Lemma sleep_loop_exact ss over : Forall (fun s => 0 <= s) ss -> forall rem spent, clock rem -> fold_right Z.add 0 ss <= ns_of rem ->
  sleep_loop rem (map Interrupted ss ++ [Whole over]) spent = Ok (0, spent + ns_of rem + over).
Proof.
  induction 1 as [|s ss Hs Hss IH]; intros rem spent Hc Hle; cbn [map app sleep_loop]; rewrite (nanosleep_ok _ _ Hc).
  - cbn. do 2 f_equal. lia.
  - cbv zeta. cbn [Z.eqb negb andb EINTR Pos.eqb]. cbn [fold_right] in Hle.
    assert (Hp : 0 <= fold_right Z.add 0 ss) by (clear - Hss; induction Hss; cbn; lia).
    replace (if s <? ns_of rem then ns_of rem - s else 0) with (ns_of rem - s) by (destruct (Z.ltb_spec s (ns_of rem)); lia).
    destruct (split_ns (ns_of rem - s) ltac:(lia)) as [C1 C2]. rewrite IH; [|exact C1|rewrite C2; lia]. rewrite C2. do 2 f_equal. lia.
Qed.
Lemma millis_split m : 0 <= m < 2 ^ 63 ->
  clock (Z.quot (if m <? 2 ^ 63 then m else m - 2 ^ 64) 1000, m mod 1000 * 1000000) /\
  ns_of (Z.quot (if m <? 2 ^ 63 then m else m - 2 ^ 64) 1000, m mod 1000 * 1000000) = m * 1000000.
Proof.
  intro H. rewrite (proj2 (Z.ltb_lt _ _)) by lia. rewrite Z.quot_div_nonneg by lia. unfold clock, ns_of. cbn [fst snd].
  Z.div_mod_to_equations. lia.
Qed.

(** C63.  sc_time_sleep returns 0 only when at least the time asked for was spent,
    whatever interruptions occurred, unless the time asked for is within a second
    of 2^64 milliseconds. *)
Theorem sleep_lasts_partial millis ns d : 0 <= millis <= 2 ^ 64 - 1000 -> Forall nap_ok ns ->
  time_sleep millis ns = Ok (0, d) -> millis * 1000000 <= d.
Proof.
  intros Hm Hn E. unfold time_sleep in E. cbv zeta in E. destruct (Z.lt_ge_cases millis (2 ^ 63)) as [H|H].
  - destruct (millis_split millis ltac:(lia)) as [C1 C2]. pose proof (sleep_loop_ok ns Hn _ _ _ _ C1 E eq_refl). lia.
  - rewrite (proj2 (Z.ltb_ge _ _)) in E by lia. destruct ns as [|n ns]; [discriminate E|]. cbn [sleep_loop] in E. unfold nanosleep in E.
    cbn [fst snd] in E. assert (Hq : Z.quot (millis - 2 ^ 64) 1000 < 0).
    { replace (millis - 2 ^ 64) with (- (2 ^ 64 - millis)) by lia. rewrite Z.quot_opp_l by lia. rewrite Z.quot_div_nonneg by lia.
      assert (1 <= (2 ^ 64 - millis) / 1000) by (apply Z.div_le_lower_bound; lia). lia. }
    rewrite (proj2 (Z.ltb_lt _ _) Hq) in E. discriminate E.
Qed.
Print Assumptions sleep_lasts_partial.
Example sleep_lasts_ex : Forall nap_ok [Interrupted 700000000; Interrupted 0; Whole 5] /\
  time_sleep 1500 [Interrupted 700000000; Interrupted 0; Whole 5] = Ok (0, 1500000005).
Proof. split; [repeat constructor; cbn; lia|reflexivity]. Qed.
(** C63.  Below 2^63 ms, interrupted any number of times before the time is up, it
    returns 0 having spent exactly the time asked for and what the last call
    oversleeps. *)
Theorem sleep_exact millis ss over : 0 <= millis < 2 ^ 63 -> Forall (fun s => 0 <= s) ss ->
  fold_right Z.add 0 ss <= millis * 1000000 ->
  time_sleep millis (map Interrupted ss ++ [Whole over]) = Ok (0, millis * 1000000 + over).
Proof.
  intros Hm Hs Hle. unfold time_sleep. cbv zeta. destruct (millis_split millis Hm) as [C1 C2].
  rewrite sleep_loop_exact; [|exact Hs|exact C1|rewrite C2; exact Hle]. rewrite C2. reflexivity.
Qed.
Print Assumptions sleep_exact.
Example sleep_exact_ex : time_sleep 2001 (map Interrupted [1; 1999999999] ++ [Whole 0]) = Ok (0, 2001000000).
Proof. reflexivity. Qed.
(** C63 fails within a second of 2^64 ms: (time_t) millis / 1000 is 0 there, and
    sc_time_sleep(UINT64_MAX) returns 0 after 615 ms. *)
Theorem sleep_lasts_refuted : exists ns d, Forall nap_ok ns /\ time_sleep (2 ^ 64 - 1) ns = Ok (0, d) /\ d = 615 * 1000000.
Proof. exists [Whole 0], 615000000. split; [repeat constructor; cbn; lia|]. split; reflexivity. Qed.
Print Assumptions sleep_lasts_refuted.

(** C74.  The clock functions return the whole milliseconds and the nanoseconds of the
    clock, as long as they fit. *)
Theorem time_exact ts : clock ts -> ns_of ts < 2 ^ 63 * 1000000 ->
  time_ms ts = Ok (ns_of ts / 1000000) /\ time_mono_ms ts = ns_of ts / 1000000 /\
  (ns_of ts < 2 ^ 64 -> time_ns ts = ns_of ts /\ time_mono_ns ts = ns_of ts).
Proof.
  destruct ts as [s n]. unfold clock, ns_of, time_ms, time_ns, time_mono_ms, time_mono_ns, s64. cbn [fst snd]. intros [H1 H2] H3.
  assert (Hs : s < 9223372036854776) by lia.
  assert (E : (s * 1000000000 + n) / 1000000 = s * 1000 + n / 1000000).
  { replace (s * 1000000000 + n) with (n + (s * 1000) * 1000000) by lia. rewrite Z.div_add by lia. lia. }
  assert (Hb : s * 1000 < 2 ^ 63) by (assert ((s * 1000000000 + n) / 1000000 < 2 ^ 63) by (apply Z.div_lt_upper_bound; lia);
    assert (0 <= n / 1000000) by (apply Z.div_pos; lia); lia).
  assert (Hd : 0 <= n / 1000000 < 1000) by (split; [apply Z.div_pos; lia|apply Z.div_lt_upper_bound; lia]).
  rewrite (proj2 (Z.leb_le (- 2 ^ 63) _)), (proj2 (Z.ltb_lt _ (2 ^ 63))) by lia. cbn [andb bind].
  rewrite Z.quot_div_nonneg by lia. rewrite !(u64_small s), !(u64_small n) by lia.
  rewrite !(u64_small (s * 1000)), !(u64_small (n / 1000000)) by lia. rewrite !(u64_small (s * 1000 + n / 1000000)) by lia.
  rewrite E. split; [reflexivity|]. split; [reflexivity|]. intro H4. rewrite (u64_small (s * 1000000000)), u64_small by lia. auto.
Qed.
Print Assumptions time_exact.
Example time_exact_ex : clock (1700000000, 987654321) /\ time_ms (1700000000, 987654321) = Ok 1700000000987.
Proof. split; [unfold clock; cbn; lia|reflexivity]. Qed.
(** C74.  While the clock does not go back, neither do sc_time_mono_ms and
    sc_time_mono_ns. *)
Theorem time_mono a b : clock a -> clock b -> ns_of a <= ns_of b -> ns_of b < 2 ^ 64 ->
  time_mono_ms a <= time_mono_ms b /\ time_mono_ns a <= time_mono_ns b.
Proof.
  intros Ha Hb Hle Hs. destruct (time_exact a Ha ltac:(lia)) as (_ & A1 & A2). destruct (time_exact b Hb ltac:(lia)) as (_ & B1 & B2).
  destruct (A2 ltac:(lia)) as [_ A3]. destruct (B2 Hs) as [_ B3]. rewrite A1, A3, B1, B3. split; [apply Z.div_le_mono; lia|lia].
Qed.
Print Assumptions time_mono.
Example time_mono_ex : ns_of (5, 999999999) <= ns_of (6, 0) /\ time_mono_ms (5, 999999999) = 5999 /\ time_mono_ms (6, 0) = 6000.
Proof. unfold ns_of. cbn. repeat split. lia. Qed.
