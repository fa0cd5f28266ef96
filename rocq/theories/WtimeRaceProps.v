(** Property C153: the first readings of the clock on several threads, Windows. *)
From Verif Require Import Base TimeModel WtimeModel WtimeRaceModel.
From Coq Require Import ZifyBool.

(** The reading of a thread alone, time and variable; the time of it. *)
Definition alone (r : res (Z * Z)) : res Z := let* (x, _) := r in Ok x.

Definition fine (whole : bool) (freq : Z) (p : rpc) : Prop :=
  match p with
  | RStart | RWrite => True
  | RWriteHi => whole = false
  | RTest lo => whole = false /\ (lo = 0 \/ lo = freq)
  | RRead lo => whole = false /\ lo = freq
  | RHave v | RDone v => v = freq
  end.
(** A thread past the test knows that the variable is set. *)
Definition needs (p : rpc) : bool := match p with RTest lo => negb (lo =? 0) | RWriteHi | RHave _ | RRead _ | RDone _ => true | _ => false end.
Definition rinv (whole : bool) (freq : Z) (s : rsys) : Prop :=
  (rvar s = 0 \/ rvar s = freq) /\ forall t, fine whole freq (rpcs s t) /\ (needs (rpcs s t) = true -> rvar s = freq).

Lemma halves v : 0 <= v < 2 ^ 32 -> low v = v /\ high v = 0.
Proof. intro H. unfold low, high. rewrite Z.div_small by lia. split; [apply u32_small; lia|reflexivity]. Qed.
Lemma join0 v : join v 0 = v.
Proof. unfold join. lia. Qed.

Lemma rstep_inv whole freq s t c : 0 < freq < 2 ^ 63 -> whole = true \/ freq < 2 ^ 32 -> rinv whole freq s -> rinv whole freq (rstep whole freq s t c).
Proof.
  intros Hf Hw [Hv Ht].
  assert (Hh : whole = false -> low freq = freq /\ high freq = 0) by (intro E; apply halves; destruct Hw; [congruence|lia]).
  assert (Hs : whole = false -> low (rvar s) = rvar s /\ high (rvar s) = 0) by (intro E; destruct Hv as [-> | ->]; [now split|now apply Hh]).
  assert (G : forall v q, (v = 0 \/ v = freq) -> (rvar s = freq -> v = freq) -> fine whole freq q -> (needs q = true -> v = freq) ->
    rinv whole freq (mk_rsys v (fun u => if Nat.eqb u t then q else rpcs s u))).
  { intros v q A B C D. split; [exact A|]. intro u. cbn [rpcs rvar]. destruct (Nat.eqb u t); [auto|]. destruct (Ht u) as [F N]. auto. }
  assert (T : forall v, v = 0 \/ v = freq -> (v = freq -> rvar s = freq) -> fine whole freq (rtested v) /\ (needs (rtested v) = true -> rvar s = freq)).
  { intros v A B. unfold rtested. destruct (Z.eqb_spec v 0) as [E|E]; cbn; [split; [exact I|discriminate]|]. destruct A as [A|A]; [contradiction|auto]. }
  destruct (Ht t) as [F N]. unfold rstep. destruct (rpcs s t) as [|lo| | |x|lo|f] eqn:E; cbn [fine needs] in *.
  - destruct whole.
    + destruct (T (rvar s) Hv (fun e => e)) as [T1 T2]. apply G; auto.
    + destruct (Hs eq_refl) as [L _]. rewrite L. apply G; auto; cbn [fine needs]; [now split|]. intro Q. destruct Hv as [Hv|Hv]; [|exact Hv]. rewrite Hv in Q. discriminate.
  - destruct F as [-> F]. destruct (Hs eq_refl) as [_ L]. rewrite L, join0. destruct (T lo F) as [T1 T2]; [intro El; apply N; lia|]. apply G; auto.
  - destruct whole; [apply G; cbn; auto|]. destruct (Hs eq_refl) as [_ L], (Hh eq_refl) as [L' _]. rewrite L, L', join0. apply G; cbn; auto.
  - subst whole. destruct (Hs eq_refl) as [L _], (Hh eq_refl) as [_ L']. rewrite L, L', join0. rewrite (N eq_refl). apply G; cbn; auto.
  - subst x. specialize (N eq_refl). destruct c; [|apply G; cbn; auto]. destruct whole; [apply G; cbn; auto|]. destruct (Hs eq_refl) as [L _]. rewrite L. apply G; cbn; auto.
  - destruct F as [-> ->]. destruct (Hs eq_refl) as [_ L]. rewrite L, join0. apply G; cbn; auto.
  - split; [exact Hv|exact Ht].
Qed.

(** C153: if the variable is accessed as a whole, or the frequency fits in 32 bits, any threads that read the clock in any order, also for the first time together,
    get what each would get alone, and the variable is 0 or the frequency.
    Missing: 32 bit programs where the frequency is 2^32 or more, see [wtime_race_refuted]; in ISO C the unsynchronised accesses are undefined. *)
Theorem wtime_race_partial : forall (whole : bool) (freq : Z) (l : list (nat * rchoice)) (t : nat) (count : Z),
  0 < freq < 2 ^ 63 -> whole = true \/ freq < 2 ^ 32 -> let s := rrun whole freq rstart l in
  (rvar s = 0 \/ rvar s = freq) /\
  (forall x, rms s t count = Some x -> x = alone (wtime_mono_ms 0 count freq) /\ x = alone (wtime_mono_ms (rvar s) count freq)) /\
  (forall x, rns s t count = Some x -> x = alone (wtime_mono_ns 0 count freq) /\ x = alone (wtime_mono_ns (rvar s) count freq)).
Proof.
  intros whole freq l t count Hf Hw. cbv zeta.
  assert (I : forall l s, rinv whole freq s -> rinv whole freq (rrun whole freq s l)).
  { induction l0 as [|[u c] l0 IH]; intros s H; [exact H|]. cbn [rrun]. apply IH. now apply rstep_inv. }
  destruct (I l rstart) as [Hv Ht]. { split; [now left|]. intro u. cbn. split; [exact Logic.I|discriminate]. }
  set (s := rrun whole freq rstart l) in *. clearbody s. split; [exact Hv|]. destruct (Ht t) as [F N].
  assert (Z0 : (freq =? 0) = false) by lia.
  split; intros x Hx; unfold rms, rns in Hx; destruct (rpcs s t); try discriminate; cbn [fine needs] in *; subst f; rewrite (N eq_refl); injection Hx as <-;
    unfold alone, wtime_mono_ms, wtime_mono_ns, wtime_freq; rewrite ?Z.eqb_refl, ?Z0; cbv zeta.
  - split; destruct (s64 (count * 1000)); reflexivity.
  - split; destruct (s64 (count * 1000000000)); reflexivity.
Qed.
Print Assumptions wtime_race_partial.
(** Two threads test the variable before either has written it; the halves are accessed. *)
Example wtime_race_ex :
  let l := [(0%nat, RGo); (1%nat, RGo); (1%nat, RGo); (0%nat, RGo); (0%nat, RGo); (1%nat, RGo); (0%nat, RGo); (1%nat, RGo); (1%nat, RGo); (0%nat, RKeep); (1%nat, RGo)] in
  let s := rrun false 10000000 rstart l in
  rms s 0 25000000 = Some (Ok 2500) /\ rms s 1 25000000 = Some (Ok 2500) /\ rns s 1 2500000 = Some (Ok 250000000) /\ rns s 0 25000000000 = Some UB /\ rvar s = 10000000.
Proof. vm_compute. repeat split. Qed.

(** A thread that finds the lower half written divides by it. *)
Theorem wtime_race_refuted : exists (l : list (nat * rchoice)) (count : Z), let freq := 2 ^ 32 + 1000 in
  0 < freq < 2 ^ 63 /\ let s := rrun false freq rstart l in
  rms s 1 count = Some (Ok count) /\ alone (wtime_mono_ms 0 count freq) = Ok 2328 /\ count = 10000000000.
Proof.
  exists [(0%nat, RGo); (0%nat, RGo); (0%nat, RGo); (1%nat, RGo); (1%nat, RGo); (1%nat, RGo); (1%nat, RGo)], 10000000000. cbv zeta. split; [lia|]. vm_compute. repeat split.
Qed.
Print Assumptions wtime_race_refuted.
