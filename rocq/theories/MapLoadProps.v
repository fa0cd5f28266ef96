(** The load factor of maps (C140). *)
From Coq Require Import ZifyBool.
From Verif Require Import Base MapModel MapSpec MapProofs CostProps.
Local Open Scope Z_scope.

(** ** The threshold computed in floating point is the exact one *)
Definition thr_exact (k lf : nat) : bool :=
  map_threshold (2 ^ Z.of_nat k) (Z.of_nat lf) =? 2 ^ Z.of_nat k * Z.of_nat lf / 100.
Lemma thr_exact_all : forallb (fun k => forallb (thr_exact k) (seq 25 71)) (seq 3 29) = true.
Proof. vm_compute. reflexivity. Qed.

Lemma threshold_exact k lf : 3 <= k <= 31 -> 25 <= lf <= 95 ->
  map_threshold (2^k) lf = 2^k * lf / 100.
Proof.
  intros Hk Hlf.
  assert (Hin : In (Z.to_nat lf) (seq 25 71)) by (apply in_seq; lia).
  assert (Hin2 : In (Z.to_nat k) (seq 3 29)) by (apply in_seq; lia).
  pose proof (proj1 (forallb_forall _ _) thr_exact_all (Z.to_nat k) Hin2) as H.
  pose proof (proj1 (forallb_forall _ _) H (Z.to_nat lf) Hin) as H2. unfold thr_exact in H2.
  rewrite !Z2Nat.id in H2 by lia. now apply Z.eqb_eq.
Qed.

Section Load.
Context {K V : Type} (ko : keyops K) (vzero : V) (Hlaw : lawful ko).
Notation smap := (smap K V).
Notation wf := (MapProofs.wf ko).

(** ** Specification *)

(** A call, its result not looked at; the run ends with term. *)
Definition m_run (m : smap) (o : mop K V) : res smap :=
  match o with
  | Term => UB
  | _ => let* (m, _) := map_step ko vzero m o in Ok m
  end.

(** The items allocated for the table. *)
Definition slots (m : smap) : Z := if static m then 0 else cap m.

(** ** Proofs *)

(** The number of items at most needed for the keys of [m]. *)
Definition need (f : Z) (m : smap) : Z := (100 * (size m + 1) - 1) / f.

Definition inv (f : Z) (m : smap) : Prop :=
  load_fac m = f /\ 100 * size m <= f * slots m /\ exists l, wf m l.

Lemma put_load f m k v ok m' ret : 25 <= f <= 95 -> inv f m ->
  map_put ko vzero m k v ok = Ok (m', ret) ->
  load_fac m' = f /\ 100 * size m' <= f * slots m' /\ size m <= size m' /\
  (slots m' = slots m \/ (slots m = 0 /\ slots m' = 8) \/
   (0 < slots m /\ slots m' = 2 * slots m /\ f * slots m < 100 * (size m + 1))).
Proof.
  intros Hf (Hlf & Hload & l & W) H. unfold map_put in H. cbv zeta in H.
  set (m1 := mk_map (mem m) (zslot m) (static m) (cap m) (size m) (load_fac m) (remap m)
               (used m) false (found m)) in *.
  pose proof (w_size _ _ _ W) as Hsz. pose proof (zlen_nonneg l) as Hl0.
  pose proof (w_room _ _ _ W) as Hroom.
  apply bind_ok in H as (r & Hr & H).
  assert (Hm2 : match r with
    | None => True
    | Some m2 => static m2 = false /\ load_fac m2 = f /\ size m2 = size m /\ size m + 1 < 2^32 /\
        100 * (size m + 1) <= f * cap m2 /\
        (cap m2 = slots m \/ (slots m = 0 /\ cap m2 = 8) \/
         (0 < slots m /\ cap m2 = 2 * slots m /\ f * slots m < 100 * (size m + 1)))
    end).
  { unfold map_remap in Hr. unfold m1 in Hr at 1 2. cbn [size remap] in Hr.
    destruct (w_kind _ _ _ W) as [(Hst & Hcap & Hs0 & Hu & Hrm)|(Hst & j & Hj & Hcap & Hrm)];
      unfold slots in *; rewrite Hst in *.
    - (* the constant table *)
      destruct (Z.ltb_spec (size m) (remap m)); [lia|].
      unfold map_alloc in Hr. cbn [cap m1] in Hr. rewrite Hcap in Hr.
      change (SC_MAP_MAX / 2 <? 1) with false in Hr. change (1 <? 8) with true in Hr. cbv iota in Hr.
      destruct ok; [|now injection Hr as <-].
      destruct (negb _); [discriminate|].
      apply bind_ok in Hr as (t & _ & Hr). injection Hr as <-. cbn [static load_fac size cap m1].
      change (next_pow2_32 8) with 8. repeat split; try lia. 
    - assert (Hthr : remap m = cap m * f / 100) by (rewrite Hrm, Hlf, Hcap; now apply threshold_exact).
      assert (8 <= cap m <= 2^31) by (rewrite Hcap; split; [apply (Z.pow_le_mono_r 2 3); lia|apply Z.pow_le_mono_r; lia]).
      pose proof (Z.mul_div_le (cap m * f) 100 ltac:(lia)) as Hd1.
      pose proof (Z.mul_succ_div_gt (cap m * f) 100 ltac:(lia)) as Hd2.
      destruct (Z.ltb_spec (size m) (remap m)).
      + injection Hr as <-. cbn [static load_fac size cap m1]. repeat split; try lia; auto.
      + unfold map_alloc in Hr. cbn [cap m1] in Hr.
        destruct (Z.ltb_spec (SC_MAP_MAX / 2) (cap m)) as [L|L]; [now injection Hr as <-|].
        change (SC_MAP_MAX / 2) with (2^31 - 1) in L.
        destruct (Z.ltb_spec (cap m) 8); [lia|].
        destruct ok; [|now injection Hr as <-].
        destruct (negb _); [discriminate|].
        apply bind_ok in Hr as (t & _ & Hr). injection Hr as <-. cbn [static load_fac size cap m1].
        assert (Hc2 : next_pow2_32 (u32 (cap m * 2)) = cap m * 2).
        { rewrite u32_small by lia. rewrite Hcap.
          replace (2^j * 2) with (2^(j+1)) by (rewrite Z.pow_add_r by lia; reflexivity).
          apply next_pow2_pow. destruct (Z.eq_dec j 31) as [->|]; lia. }
        rewrite Hc2. repeat split; try lia; auto. }
  destruct r as [m2|].
  2:{ injection H as <- _. cbn [load_fac size]. unfold slots in *. cbn [static cap].
      repeat split; auto; lia. }
  destruct Hm2 as (Hst2 & Hlf2 & Hs2 & Hb & Hld & Hcase).
  assert (Hfin : forall n, (n = size m2 \/ n = size m2 + 1) ->
     100 * n <= f * cap m2 /\ size m <= n) by lia.
  assert (Hsl : forall x : smap, static x = false -> slots x = cap x) by (intros x E; unfold slots; now rewrite E).
  destruct (isnull ko k).
  - rewrite Hst2 in H. injection H as <- _. cbn [load_fac size].
    rewrite (Hsl (mk_map _ _ _ _ _ _ _ _ _ _)) by (cbn; auto). cbn [cap].
    assert (E : u32 (size m2 + (if used m2 then 0 else 1)) = size m2 + (if used m2 then 0 else 1))
      by (apply u32_small; destruct (used m2); lia).
    rewrite E. destruct (Hfin (size m2 + (if used m2 then 0 else 1))) as (F1 & F2); [destruct (used m2); lia|].
    repeat split; auto.
  - apply bind_ok in H as ((pos & x) & _ & H). apply bind_ok in H as (t & _ & H). injection H as <- _.
    cbn [load_fac size]. rewrite (Hsl (mk_map _ _ _ _ _ _ _ _ _ _)) by (cbn; auto). cbn [cap].
    assert (E : u32 (size m2 + 1) = size m2 + 1) by (apply u32_small; lia). rewrite E.
    destruct (Hfin (if isnull ko (skey x) then size m2 + 1 else size m2)) as (F1 & F2);
      [destruct (isnull ko (skey x)); lia|].
    repeat split; auto.
Qed.

Lemma run_load f m o m' : 25 <= f <= 95 -> inv f m -> m_run m o = Ok m' ->
  inv f m' /\
  (slots m' = slots m \/ (slots m = 0 /\ slots m' = 8) \/
   (0 < slots m /\ slots m' = 2 * slots m /\ slots m <= need f m')).
Proof.
  intros Hf Hi Hs. pose proof Hi as (Hlf & Hload & l & W).
  destruct o as [k v ok|k|k| |]; cbn [m_run map_step] in Hs.
  - apply bind_ok in Hs as ((m1 & ret) & Hp & E). injection E as <-.
    destruct (put_load f m k v ok m1 ret Hf Hi Hp) as (H1 & H2 & H3 & H4).
    destruct (put_ok ko vzero Hlaw m l k v ok W) as (m2 & ret2 & Hp2 & Ha & Hb).
    rewrite Hp in Hp2. injection Hp2 as <- <-.
    split.
    + split; [auto|]. split; [auto|]. destruct (oom m1); [destruct (Ha eq_refl) as (_ & ? & _)|destruct (Hb eq_refl) as (_ & ? & _)]; eauto.
    + destruct H4 as [? | [? | (A & B & C)]]; auto. right. right. repeat split; auto.
      unfold need. apply Z.div_le_lower_bound; lia.
  - rewrite (get_ok ko vzero Hlaw m l k W) in Hs. cbn [bind] in Hs. injection Hs as <-.
    split; [|auto]. split; [auto|]. split; [auto|]. exists l. destruct W; constructor; assumption.
  - destruct (del_ok ko vzero Hlaw m l k W) as (m1 & Hd & W1 & _). rewrite Hd in Hs. cbn [bind] in Hs.
    injection Hs as <-.
    assert (Hfr : cap m1 = cap m /\ static m1 = static m /\ load_fac m1 = load_fac m).
    { unfold map_del in Hd. cbv zeta in Hd. destruct (isnull ko k); [injection Hd as <- _; auto|].
      apply bind_ok in Hd as ((pos & x) & _ & Hd). destruct (isnull ko (skey x)); [injection Hd as <- _; auto|].
      apply bind_ok in Hd as (t & _ & Hd). apply bind_ok in Hd as (t2 & _ & Hd). injection Hd as <- _. auto. }
    destruct Hfr as (F1 & F2 & F3).
    assert (Hsl : slots m1 = slots m) by (unfold slots; now rewrite F1, F2).
    split; [|auto]. split; [congruence|]. rewrite Hsl. split; [|eauto].
    rewrite (w_size _ _ _ W1). rewrite (w_size _ _ _ W) in Hload.
    assert (zlen (MapSpec.remove ko k l) <= zlen l).
    { unfold MapSpec.remove, zlen. clear.
      induction l as [|a l IH]; cbn [filter length]; [lia|]. destruct (negb _); cbn [length]; lia. }
    lia.
  - apply bind_ok in Hs as ((m1 & ret) & Hc & E). injection E as <-.
    apply bind_ok in Hc as (m2 & Hc & E). injection E as -> _.
    destruct (clear_ok ko Hlaw m l W) as (m3 & Hc2 & W1 & _). rewrite Hc in Hc2. injection Hc2 as <-.
    assert (Hfr : cap m1 = cap m /\ static m1 = static m /\ load_fac m1 = load_fac m).
    { unfold map_clear in Hc. destruct (0 <? size m); [|injection Hc as <-; auto].
      destruct (static m); [discriminate|]. destruct (negb _); [discriminate|]. injection Hc as <-. auto. }
    destruct Hfr as (F1 & F2 & F3).
    assert (Hsl : slots m1 = slots m) by (unfold slots; now rewrite F1, F2).
    split; [|auto]. split; [congruence|]. rewrite Hsl. split; [|eauto].
    rewrite (w_size _ _ _ W1). change (zlen []) with 0. pose proof (w_size _ _ _ W). pose proof (zlen_nonneg l). lia.
  - discriminate.
Qed.

Lemma run_all f : 25 <= f <= 95 -> forall ops m t, inv f m -> trail m_run m ops = Ok t ->
  forall x, In x t -> inv f x.
Proof.
  intros Hf. induction ops as [|o ops IH]; intros m t Hi Ht x Hx; cbn [trail] in Ht.
  - injection Ht as <-. destruct Hx as [<-|[]]. exact Hi.
  - apply bind_ok in Ht as (m1 & Hs & Ht). apply bind_ok in Ht as (t1 & Ht & E). injection E as <-.
    destruct Hx as [<-|Hx]; [exact Hi|]. eapply IH; [|exact Ht|exact Hx]. eapply run_load; eauto.
Qed.

Lemma peak_need f : 25 <= f <= 95 -> forall t, peak (need f) t <= (100 * (peak size t + 1) - 1) / f.
Proof.
  intros Hf. induction t as [|m t IH]; cbn [peak].
  - apply Z.div_pos; lia.
  - apply Z.max_lub.
    + unfold need. apply Z.div_le_mono; lia.
    + etransitivity; [exact IH|]. apply Z.div_le_mono; lia.
Qed.
End Load.

(** C140: in a map initialised with load factor [f], the keys never fill more
    than [f] percent of the table; the table is not larger than twice what the
    largest number of keys needs (or than at the beginning); moving items to
    larger tables costs no more than that altogether. *)
Theorem map_load_factor :
  forall (K V : Type) (ko : keyops K) (vzero : V), lawful ko ->
  forall g c lf ok m0 ops t,
    0 <= c <= 2^31 ->
    map_init ko vzero g c lf ok = Some m0 ->
    trail (m_run ko vzero) m0 ops = Ok t ->
    let f := if lf =? 0 then 75 else lf in
    (forall m, In m t ->
       100 * map_size m <= f * cap m /\
       (cap m <= Z.max 8 (cap m0) \/ f * cap m < 200 * (peak map_size t + 1))) /\
    f * moved slots t < 200 * (peak map_size t + 1).
Proof.
  intros K V ko vzero Hlaw g c lf ok m0 ops t Hc Hi Ht f.
  pose proof (init_ok ko vzero Hlaw g c lf ok m0 Hc Hi) as W0.
  assert (H0 : 25 <= f <= 95 /\ load_fac m0 = f /\ size m0 = 0 /\
               (c = 0 /\ static m0 = true /\ cap m0 = 1 \/ c <> 0 /\ static m0 = false /\ 8 <= cap m0)).
  { unfold map_init in Hi. fold f in Hi.
    destruct ((95 <? f) || (f <? 25)) eqn:E; [discriminate|]. apply orb_false_iff in E as (E1 & E2).
    split; [lia|]. destruct (Z.eqb_spec c 0) as [->|Hne].
    - injection Hi as <-. cbn [load_fac size static cap]. repeat split; auto.
    - unfold map_alloc in Hi. destruct (SC_MAP_MAX / 1 <? c); [discriminate|].
      destruct (alloc_pow2 c Hc) as (k & Hk & Hp & _). rewrite Hp in Hi. destruct ok; [|discriminate].
      injection Hi as <-. cbn [load_fac size static cap]. repeat split; auto. right. repeat split; auto.
      apply (Z.pow_le_mono_r 2 3); lia. }
  destruct H0 as (Hf & Hlf & Hs0 & Hkind).
  assert (Hinv0 : inv ko f m0).
  { split; [auto|]. split; [|eauto]. rewrite Hs0. unfold slots.
    destruct Hkind as [(_ & -> & _)|(_ & -> & ?)]; lia. }
  pose proof (run_all ko vzero Hlaw f Hf ops m0 t Hinv0 Ht) as Hall.
  assert (Hpk : 0 <= peak (need f) t).
  { destruct (trail_head _ _ _ _ Ht) as (r & ->). cbn [peak]. unfold need at 1. rewrite Hs0.
    assert (0 <= (100 * (0 + 1) - 1) / f) by (apply Z.div_pos; lia). lia. }
  pose proof (peak_need f Hf t) as Hpn. change (@size K V) with (@map_size K V) in Hpn.
  set (p := peak map_size t) in *.
  assert (Hp : f * peak (need f) t <= 100 * (p + 1) - 1).
  { pose proof (Z.mul_div_le (100 * (p + 1) - 1) f ltac:(lia)). nia. }
  assert (Hgrow : exists c0 k, c0 <= Z.max 8 (cap m0) /\ grows_well slots (need f) c0 k t).
  { destruct Hkind as [(_ & Hst & Hcp)|(_ & Hst & Hcp)].
    - exists 8, 1. split; [lia|].
      apply (doubling_from_0 (m_run ko vzero) slots (need f) 8 (inv ko f) ltac:(lia)) with (ops := ops) (s := m0); auto.
      + intros s o s' Hi' Hs'. exact (run_load ko vzero Hlaw f s o s' Hf Hi' Hs').
      + unfold slots. now rewrite Hst.
    - exists (cap m0), 0. split; [lia|].
      apply (doubling_from (m_run ko vzero) slots (need f) (cap m0) (fun m => inv ko f m /\ 0 < slots m) ltac:(lia))
        with (ops := ops) (s := m0); auto.
      + intros s o s' (Hi' & Hpos) Hs'. destruct (run_load ko vzero Hlaw f s o s' Hf Hi' Hs') as (A & B).
        split; [split; [auto|lia]|lia].
      + split; [auto|]. unfold slots. rewrite Hst. lia.
      + unfold slots. now rewrite Hst. }
  destruct Hgrow as (c0 & k & Hc0 & Hg1 & Hg2 & _). split.
  - intros m Hm. destruct (Hall m Hm) as (_ & Hld & l & W). specialize (Hg1 m Hm).
    unfold map_size. destruct (w_kind _ _ _ W) as [(Hst & Hcp & Hsz & _)|(Hst & _)]; unfold slots in *; rewrite Hst in *.
    + rewrite Hcp, Hsz. split; [lia|left; lia].
    + split; [lia|]. destruct (Z_le_gt_dec (cap m) (Z.max 8 (cap m0))); [auto|]. right.
      assert (cap m <= 2 * peak (need f) t) by lia. nia.
  - nia.
Qed.
Print Assumptions map_load_factor.

(** 30 keys with load factor 50: tables of 8, 16, 32 and 64 items. *)
Example map_load_ex :
  exists m0 t, map_init ops64 0 (map_empty ops64 0) 0 50 true = Some m0 /\
    trail (m_run ops64 0) m0 (map (fun n => Put (Z.of_nat n) 0 true) (seq 1 30)) = Ok t /\
    peak map_size t = 30 /\ moved slots t = 56 /\ map cap (skipn 30 t) = [64].
Proof. vm_example. Qed.

(** A map used again after term without init has load factor 0: every put, even
    of a key that is there, doubles the table (C140 is about maps that are
    initialised).  12 puts of one key end with 16384 items. *)
Example map_load_after_term_ex :
  exists m0 m1 m2 v, map_init ops64 0 (map_empty ops64 0) 0 75 true = Some m0 /\
    foldM (fun m o => let* (m, _) := map_step ops64 0 m o in Ok m) m0
      ([Put 1 1 true; Term] ++ repeat (Put 1 1 true) 12) = Ok m1 /\
    map_size m1 = 1 /\ cap m1 = 16384 /\
    map_get ops64 0 m1 1 = Ok (m2, v) /\ v = 1.
Proof. vm_example. Qed.
