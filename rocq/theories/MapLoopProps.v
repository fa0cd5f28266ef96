(** C128: map/sc_map.h, loops whose body changes the map. *)
From Verif Require Import Base MapModel MapSpec MapProofs MapProps MapLoopModel.

(** ** Specification *)
Section Spec.
Context {K V : Type} (ko : keyops K).
(** The bindings before and after what happened: whatever is visited is in the map at that time. *)
Fixpoint explains (l : list (K * V)) (t : list (lev K V)) (l' : list (K * V)) : Prop :=
  match t with
  | [] => l' = l
  | Visit k v :: t => lookup ko k l = Some v /\ explains l t l'
  | Did o fail :: t => explains (ideal ko l o fail) t l'
  end.
(** The keys visited. *)
Fixpoint visited (t : list (lev K V)) : list K :=
  match t with [] => [] | Visit k _ :: t => k :: visited t | _ :: t => visited t end.
Definition is_in (l : list (K * V)) (k : K) : Prop := lookup ko k l <> None.
(** No two of the keys are the same. *)
Fixpoint distinct (ks : list K) : Prop :=
  match ks with [] => True | k :: ks => (forall k', In k' ks -> same ko k k' = false) /\ distinct ks end.
End Spec.

(** ** Proofs *)
Section Proofs.
Context {K V : Type} (ko : keyops K) (vzero : V) (Hl : lawful ko).
Notation smap := (smap K V). Notation mop := (mop K V). Notation wf := (wf (V := V) ko).

Lemma explains_app t1 : forall l l1 t2 l2, explains ko l t1 l1 -> explains ko l1 t2 l2 -> explains ko (V := V) l (t1 ++ t2) l2.
Proof.
  induction t1 as [|[k v|o f] t1 IH]; intros l l1 t2 l2 H1 H2; cbn [explains app] in *; [now subst l1| |].
  - destruct H1 as [H0 H1]. split; [exact H0|]. now apply (IH l l1).
  - now apply (IH _ l1).
Qed.
Lemma calls_ok ops : forall m l, wf m l -> exists m' rs es l',
  calls_run ko vzero m ops = Ok (m', rs, es) /\ explains ko l es l' /\ wf m' l' /\ visited es = [].
Proof.
  induction ops as [|o ops IH]; intros m l W; cbn [calls_run].
  - exists m, [], [], l. split; [reflexivity|]. split; [reflexivity|]. split; [exact W|reflexivity].
  - destruct (step_ok ko vzero Hl m l o W) as (m1 & r & E & _ & _ & W1). rewrite E. cbn [bind].
    destruct (IH m1 _ W1) as (m2 & rs & es & l2 & E2 & X2 & W2 & V2). rewrite E2. cbn [bind].
    exists m2, (r :: rs), (Did o (call_failed o m1) :: es), l2. split; [reflexivity|]. split; [|split; [exact W2|exact V2]].
    cbn [explains]. exact X2.
Qed.
Lemma zslot_lookup m l : wf m l -> used m = true -> lookup ko (skey (zslot m)) l = Some (sval (zslot m)).
Proof.
  intros W U. rewrite (w_z _ _ _ W). apply (lookup_in ko Hl _ _ (knull ko, sval (zslot m))); [apply W| | |reflexivity].
  - apply (Permutation_in _ (w_ents _ _ _ W)). apply in_or_app. left. unfold zent. rewrite U. now left.
  - cbn. apply (same_refl ko Hl).
Qed.
Lemma slot_lookup m l i x : wf m l -> zget (mem m) i = Some x -> isnull ko (skey x) = false -> lookup ko (skey x) l = Some (sval x).
Proof.
  intros W G N. apply (lookup_in ko Hl _ _ (skey x, sval x)); [apply W| | |reflexivity].
  - apply (Permutation_in _ (w_ents _ _ _ W)). apply in_or_app. right. apply (In_ents ko). exists i, x. unfold occ. rewrite N. now repeat split.
  - cbn. apply (same_refl ko Hl).
Qed.
Lemma loop_item m l i : wf m l -> -1 <= i < cap m -> exists x, (if i =? -1 then Ok (zslot m) else zload (mem m) i) = Ok x /\
  (((i =? -1) && used m) || negb (isnull ko (skey x)) = true -> lookup ko (skey x) l = Some (sval x)).
Proof.
  intros W Hi. destruct (Z.eqb_spec i (-1)) as [->|Hn].
  - exists (zslot m). split; [reflexivity|]. rewrite (w_z _ _ _ W), (knull_null ko Hl). cbn [andb negb]. rewrite Bool.orb_false_r. intro U.
    rewrite <- (w_z _ _ _ W). now apply zslot_lookup.
  - pose proof (tb_len _ _ _ (w_tab _ _ _ W)) as L. destruct (zget (mem m) i) as [x|] eqn:G; [|apply zget_None in G; lia].
    exists x. split; [unfold zload; now rewrite G|]. cbn [andb orb]. intro N. apply Bool.negb_true_iff in N. now apply (slot_lookup m l i).
Qed.
Lemma loop_ok {S} (b : body (K := K) (V := V) S) n : forall i m l s, wf m l -> -1 <= i <= 2 ^ 31 -> 2 ^ 31 - i < Z.of_nat n ->
  exists m' s' t brk l', map_loop ko vzero n b i m s = Ok (m', s', t, brk) /\ explains ko l t l' /\ wf m' l'.
Proof.
  induction n as [|n IH]; intros i m l s W Hi Hn; [lia|]. cbn [map_loop].
  pose proof (tb_pos _ _ _ (w_tab _ _ _ W)) as Hc.
  destruct (Z.ltb_spec i (cap m)) as [Hlt|Hge].
  - destruct (loop_item m l i W ltac:(lia)) as (x & Ex & Hx). rewrite Ex. cbn [bind].
    destruct (((i =? -1) && used m) || negb (isnull ko (skey x))).
    + destruct (calls_ok (b_calls _ b s (skey x) (sval x)) m l W) as (m1 & rs & es & l1 & E1 & X1 & W1 & _). rewrite E1. cbn [bind].
      destruct (b_next _ b s (skey x) (sval x) rs) as [s1 brk]. destruct brk.
      * exists m1, s1, (Visit (skey x) (sval x) :: es), true, l1. split; [reflexivity|]. split; [|exact W1]. cbn [explains]. split; [now apply Hx|exact X1].
      * destruct (IH (i + 1) m1 l1 s1 W1 ltac:(lia) ltac:(lia)) as (m2 & s2 & t & brk & l2 & E2 & X2 & W2). rewrite E2. cbn [bind].
        exists m2, s2, ((Visit (skey x) (sval x) :: es) ++ t), brk, l2. split; [reflexivity|]. split; [|exact W2].
        cbn [explains app]. split; [now apply Hx|]. now apply (explains_app es l l1).
    + apply IH; [exact W|lia|lia].
  - exists m, s, [], false, l. split; [reflexivity|]. split; [reflexivity|exact W].
Qed.

(** *** Deleting the current key *)
Definition deleter {S} (next : S -> K -> V -> list V -> S * bool) : body S := mk_body (fun _ k _ => [Del k]) next.
Definition del_trace (vs : list (K * V)) : list (lev K V) := flat_map (fun p => [Visit (fst p) (snd p); Did (Del (fst p)) false]) vs.
Lemma delete_trace {S} next n : forall i m (s : S) m' s' t brk, map_loop ko vzero n (deleter next) i m s = Ok (m', s', t, brk) ->
  exists vs, t = del_trace vs.
Proof.
  induction n as [|n IH]; intros i m s m' s' t brk E; cbn [map_loop] in E; [discriminate|].
  destruct (i <? cap m); [|injection E as _ _ <- _; now exists []].
  destruct (if i =? -1 then Ok (zslot m) else zload (mem m) i) as [x| |]; cbn [bind] in E; try discriminate.
  destruct (((i =? -1) && used m) || negb (isnull ko (skey x))); [|exact (IH _ _ _ _ _ _ _ E)].
  cbn [deleter b_calls b_next calls_run] in E. destruct (map_step ko vzero m (Del (skey x))) as [[m1 r]| |]; cbn [bind] in E; try discriminate.
  destruct (next s (skey x) (sval x) [r]) as [s1 b1]. destruct b1.
  - injection E as _ _ <- _. now exists [(skey x, sval x)].
  - destruct (map_loop ko vzero n (deleter next) (i + 1) m1 s1) as [[[[m2 s2] t2] b2]| |] eqn:E2; cbn [bind] in E; try discriminate.
    injection E as _ _ <- _. destruct (IH _ _ _ _ _ _ _ E2) as (vs & ->). now exists ((skey x, sval x) :: vs).
Qed.
Lemma lookup_del (l : list (K * V)) k k' : lookup ko k' (remove ko k l) = if same ko k k' then None else lookup ko k' l.
Proof.
  destruct l as [|[a v] r]; [now destruct (same ko k k')|]. exact (proj1 (proj2 (map_ideal_meaning K V ko Hl ((a, v) :: r) k v k'))).
Qed.
Lemma same_lookup (l : list (K * V)) k k' : same ko k k' = true -> lookup ko k l = lookup ko k' l.
Proof.
  intro H. induction l as [|p l IH]; [reflexivity|]. rewrite !(lookup_cons ko), IH.
  replace (same ko (fst p) k') with (same ko (fst p) k); [reflexivity|]. destruct (same ko (fst p) k) eqn:E1; destruct (same ko (fst p) k') eqn:E2; try reflexivity; exfalso.
  - rewrite (same_trans ko Hl _ _ _ E1 H) in E2. discriminate.
  - rewrite (same_sym_eq ko Hl) in H. rewrite (same_trans ko Hl _ _ _ E2 H) in E1. discriminate.
Qed.
Lemma delete_explains vs : forall l l', explains ko l (del_trace vs) l' ->
  distinct ko (map fst vs) /\ Forall (fun p => lookup ko (fst p) l = Some (snd p)) vs /\
  forall k, lookup ko k l' = if existsb (fun p => same ko (fst p) k) vs then None else lookup ko k l.
Proof.
  induction vs as [|[k v] vs IH]; intros l l' H; cbn [del_trace flat_map app explains fst snd] in H.
  - subst l'. now repeat split.
  - destruct H as [Hk H]. cbn [ideal] in H. destruct (IH _ _ H) as (D & F & L). split; [|split].
    + cbn [map distinct fst]. split; [|exact D]. intros k' Hin. apply in_map_iff in Hin as (p & <- & Hp).
      rewrite Forall_forall in F. specialize (F p Hp). rewrite lookup_del in F. now destruct (same ko k (fst p)).
    + constructor; [exact Hk|]. apply (Forall_impl _ (P := fun p => lookup ko (fst p) (remove ko k l) = Some (snd p))); [|exact F].
      intros p Hp. rewrite lookup_del in Hp. now destruct (same ko k (fst p)).
    + intro k'. rewrite L, lookup_del. cbn [existsb fst]. destruct (same ko k k'); [now destruct (existsb _ vs)|reflexivity].
Qed.

(** *** Storing values *)
(** The items are the same but for the values and equal keys. *)
Definition keeps (m0 m : smap) : Prop :=
  cap m = cap m0 /\ size m = size m0 /\ remap m = remap m0 /\ used m = used m0 /\
  forall i x, zget (mem m0) i = Some x -> exists y, zget (mem m) i = Some y /\ isnull ko (skey y) = isnull ko (skey x) /\
    (isnull ko (skey x) = false -> same ko (skey x) (skey y) = true).
Lemma keeps_refl m : keeps m m.
Proof. repeat split. intros i x G. exists x. repeat split; [exact G|]. intros _. apply (same_refl ko Hl). Qed.
Lemma keeps_trans a b c : keeps a b -> keeps b c -> keeps a c.
Proof.
  intros (A1 & A2 & A3 & A4 & A5) (B1 & B2 & B3 & B4 & B5). repeat split; try congruence.
  intros i x G. destruct (A5 i x G) as (y & Gy & Ny & Sy). destruct (B5 i y Gy) as (z & Gz & Nz & Sz). exists z. split; [exact Gz|]. split; [congruence|].
  intro N. apply (same_trans ko Hl _ (skey y)); [now apply Sy|]. apply Sz. congruence.
Qed.
Lemma put_keeps m l k v ok m' r : wf m l -> size m < remap m -> is_in ko l k -> map_put ko vzero m k v ok = Ok (m', r) ->
  keeps m m' /\ oom m' = false.
Proof.
  intros W Hsz Hk E. unfold map_put in E. cbv zeta in E. unfold map_remap in E. cbn [size remap mem] in E.
  rewrite (proj2 (Z.ltb_lt _ _) Hsz) in E. cbn [bind static used zslot mem cap size load_fac remap oom found] in E.
  destruct (isnull ko k) eqn:N.
  - destruct (static m); [discriminate|]. injection E as <- _. pose proof (lookup_null ko Hl m l k W N) as Lk.
    destruct (used m) eqn:U; [|unfold is_in in Hk; congruence]. split; [|reflexivity]. unfold keeps. cbn [cap size remap used mem].
    split; [reflexivity|]. split; [|split; [reflexivity|split; [congruence|]]].
    + rewrite Z.add_0_r. apply u32_small. pose proof (w_size _ _ _ W). pose proof (w_room _ _ _ W). pose proof (tb_pos _ _ _ (w_tab _ _ _ W)). pose proof (zlen_nonneg l). lia.
    + intros i x G. exists x. repeat split; [exact G|]. intros _. apply (same_refl ko Hl).
  - destruct (wf_probe ko Hl m l k W N) as (pos & x & Hp & Hx & Hor).
    set (m1 := mk_map (mem m) (zslot m) (static m) (cap m) (size m) (load_fac m) (remap m) (used m) false (found m)) in *.
    change (pfuel m1) with (pfuel m) in E. rewrite Hp in E. cbn [bind] in E.
    destruct Hor as [(Ho & He & _)|(_ & Hn & _)]; [|unfold is_in in Hk; congruence].
    assert (Nx : isnull ko (skey x) = false) by (unfold occ in Ho; now apply Bool.negb_true_iff in Ho). rewrite Nx in E.
    unfold write_slot in E. change (static m1) with (static m) in E. change (mem m1) with (mem m) in E. destruct (static m); [discriminate|].
    pose proof (zget_Some_range _ _ _ Hx) as Hr. rewrite zput_ok in E by lia. cbn [bind] in E. injection E as <- _. split; [|reflexivity].
    unfold keeps. cbn [cap size remap used mem]. repeat (split; [reflexivity|]). intros i y G.
    destruct (Z.eq_dec i pos) as [->|Hne].
    + rewrite Hx in G. injection G as <-. exists (map_assign ko x k v (hashk ko k)). split; [apply zget_zset_eq; lia|]. cbn [map_assign skey]. split; [congruence|].
      intros _. unfold same. now rewrite Nx, N, He.
    + exists y. split; [rewrite zget_zset_neq; [exact G|lia]|]. split; [reflexivity|]. intros _. apply (same_refl ko Hl).
Qed.
(** Calls that store values of keys in [l] only, or look up. *)
Definition stores (l : list (K * V)) (o : mop) : Prop := match o with Get _ => True | Put k _ _ => is_in ko l k | _ => False end.
Lemma stores_keys l o : stores l o -> forall l1, (forall k, is_in ko l1 k <-> is_in ko l k) -> forall k, is_in ko (ideal ko l1 o false) k <-> is_in ko l k.
Proof.
  destruct o as [k' v ok|k'|k'| |]; cbn [stores ideal]; intros H l1 H1 k; try contradiction; [|apply H1].
  unfold is_in. pose proof (proj1 (map_ideal_meaning K V ko Hl l1 k' v k)) as Em. cbn [ideal] in Em. rewrite Em. destruct (same ko k' k) eqn:E; [|apply H1].
  split; [intros _|discriminate]. rewrite <- (same_lookup l k' k E). exact H.
Qed.
Lemma calls_keep l ops : Forall (stores l) ops -> forall m l1, wf m l1 -> (forall k, is_in ko l1 k <-> is_in ko l k) -> size m < remap m ->
  exists m' rs es l', calls_run ko vzero m ops = Ok (m', rs, es) /\ wf m' l' /\ (forall k, is_in ko l' k <-> is_in ko l k) /\ keeps m m' /\ visited es = [] /\ explains ko l1 es l'.
Proof.
  intro F. induction F as [|o ops Ho F IH]; intros m l1 W H1 Hs; cbn [calls_run].
  - exists m, [], [], l1. split; [reflexivity|]. split; [exact W|]. split; [exact H1|]. split; [apply keeps_refl|]. split; reflexivity.
  - destruct (step_ok ko vzero Hl m l1 o W) as (m1 & r & E & _ & _ & W1).
    assert (Kp : keeps m m1 /\ failed o m1 = false).
    { destruct o as [k v ok|k|k| |]; cbn [stores] in Ho; try contradiction; cbn [map_step] in E.
      - cbn [failed]. apply (put_keeps m l1 k v ok m1 r W Hs); [now apply H1|exact E].
      - rewrite (get_ok ko vzero Hl m l1 k W) in E. injection E as <- _. split; [|reflexivity]. exact (keeps_refl m). }
    destruct Kp as [Kp Nf]. rewrite E. cbn [bind]. rewrite Nf in W1.
    destruct (IH m1 _ W1 (stores_keys l o Ho l1 H1)) as (m2 & rs & es & l2 & E2 & W2 & H2 & K2 & V2 & X2).
    { destruct Kp as (_ & -> & -> & _). exact Hs. }
    rewrite E2. cbn [bind]. exists m2, (r :: rs), (Did o (call_failed o m1) :: es), l2. split; [reflexivity|]. split; [exact W2|]. split; [exact H2|].
    split; [now apply (keeps_trans m m1)|]. split; [exact V2|]. cbn [explains]. change (call_failed o m1) with (failed o m1). now rewrite Nf.
Qed.
Lemma visited_app (t1 t2 : list (lev K V)) : visited (t1 ++ t2) = visited t1 ++ visited t2.
Proof. induction t1 as [|[k v|o f] t1 IH]; cbn; [reflexivity| |exact IH]. now rewrite IH. Qed.
(** What is left to visit from index [i] on. *)
Definition rest (m : smap) (i : Z) : list K :=
  if i =? -1 then map fst (zent ko m ++ ents ko (mem m)) else map fst (ents ko (skipn (Z.to_nat i) (mem m))).
Lemma rest_step m l i x : wf m l -> -1 <= i < cap m -> (if i =? -1 then Ok (zslot m) else zload (mem m) i) = Ok x ->
  rest m i = (if ((i =? -1) && used m) || negb (isnull ko (skey x)) then [skey x] else []) ++ rest m (i + 1).
Proof.
  intros W Hi E. unfold rest. destruct (Z.eqb_spec i (-1)) as [->|Hn].
  - injection E as <-. cbn [Z.add Z.eqb andb]. rewrite (w_z _ _ _ W), (knull_null ko Hl). cbn [negb]. rewrite Bool.orb_false_r. change (Z.to_nat (-1 + 1)) with O. cbn [skipn].
    unfold zent. now destruct (used m).
  - destruct (Z.eqb_spec (i + 1) (-1)); [lia|]. unfold zload in E. destruct (zget (mem m) i) as [y|] eqn:G; [|discriminate]. injection E as <-.
    cbn [andb orb]. replace (Z.to_nat (i + 1)) with (S (Z.to_nat i)) by lia.
    assert (Es : skipn (Z.to_nat i) (mem m) = y :: skipn (S (Z.to_nat i)) (mem m)).
    { unfold zget in G. destruct (Z.ltb_spec i 0); [lia|]. clear -G. revert G. generalize (Z.to_nat i) as k. intro k. generalize (mem m) as t. induction k as [|k IH]; intros [|z t] G; try discriminate; cbn in G.
      - injection G as ->. reflexivity.
      - change (skipn (S k) (z :: t)) with (skipn k t). rewrite (IH t G). reflexivity. }
    rewrite Es. cbn [ents flat_map]. unfold ent, occ. now destruct (isnull ko (skey y)).
Qed.
Lemma rest_keeps m0 m l0 l i : wf m0 l0 -> wf m l -> keeps m0 m -> -1 <= i -> Forall2 (fun a b => same ko a b = true) (rest m0 i) (rest m i).
Proof.
  intros W0 W (K1 & _ & _ & K4 & K5) Hi.
  assert (Gen : forall t0 t : list (slot K V), length t0 = length t -> (forall n x, nth_error t0 n = Some x -> exists y, nth_error t n = Some y /\ isnull ko (skey y) = isnull ko (skey x) /\ (isnull ko (skey x) = false -> same ko (skey x) (skey y) = true)) ->
    Forall2 (fun a b => same ko a b = true) (map fst (ents ko t0)) (map fst (ents ko t))).
  { induction t0 as [|x t0 IH]; intros [|y t] L H; try discriminate; [constructor|]. cbn [ents flat_map].
    destruct (H O x eq_refl) as (y' & Ey & Ny & Sy). cbn in Ey. injection Ey as <-. rewrite !map_app. apply Forall2_app.
    - unfold ent, occ. rewrite Ny. destruct (isnull ko (skey x)); cbn [negb]; [constructor|]. repeat constructor. now apply Sy.
    - apply IH; [now injection L|]. intros n z Hz. exact (H (S n) z Hz). }
  assert (Lm : length (mem m0) = length (mem m)).
  { pose proof (tb_len _ _ _ (w_tab _ _ _ W0)). pose proof (tb_len _ _ _ (w_tab _ _ _ W)). unfold zlen in *. lia. }
  assert (Nt : forall n x, nth_error (mem m0) n = Some x -> exists y, nth_error (mem m) n = Some y /\ isnull ko (skey y) = isnull ko (skey x) /\ (isnull ko (skey x) = false -> same ko (skey x) (skey y) = true)).
  { intros n x G. destruct (K5 (Z.of_nat n) x) as (y & Gy & Q).
    - unfold zget. destruct (Z.ltb_spec (Z.of_nat n) 0); [lia|]. now rewrite Nat2Z.id.
    - exists y. split; [|exact Q]. unfold zget in Gy. destruct (Z.ltb_spec (Z.of_nat n) 0); [lia|]. now rewrite Nat2Z.id in Gy. }
  unfold rest. destruct (i =? -1).
  - rewrite !map_app. apply Forall2_app; [|now apply Gen]. unfold zent. rewrite K4. destruct (used m0); repeat constructor. apply (same_refl ko Hl).
  - apply Gen; [rewrite !skipn_length; lia|]. intros n x G.
    assert (Sk : forall (t : list (slot K V)) a b, nth_error (skipn a t) b = nth_error t (a + b)%nat).
    { intros t a. revert t. induction a as [|a IH]; intros t b; [reflexivity|]. destruct t as [|z t]; [now destruct b|]. exact (IH t b). }
    rewrite Sk in G. destruct (Nt _ _ G) as (y & Gy & Q). exists y. now rewrite Sk.
Qed.
Lemma Forall2_same_trans a : forall b c, Forall2 (fun x y => same ko x y = true) a b -> Forall2 (fun x y => same ko x y = true) b c -> Forall2 (fun x y => same ko x y = true) a c.
Proof.
  induction a as [|x a IH]; intros b c H1 H2; inversion H1; subst; inversion H2; subst; constructor; [|now apply (IH l')].
  now apply (same_trans ko Hl _ y).
Qed.
Lemma store_loop {S} (b : body S) l (Hb : forall s k v, Forall (stores l) (b_calls _ b s k v)) (Hn : forall s k v rs, snd (b_next _ b s k v rs) = false) n :
  forall i m l1 s, wf m l1 -> (forall k, is_in ko l1 k <-> is_in ko l k) -> size m < remap m -> -1 <= i <= cap m -> cap m - i < Z.of_nat n ->
  exists m' s' t l', map_loop ko vzero n b i m s = Ok (m', s', t, false) /\ wf m' l' /\ explains ko l1 t l' /\ (forall k, is_in ko l' k <-> is_in ko l k) /\
    Forall2 (fun a b => same ko a b = true) (rest m i) (visited t).
Proof.
  induction n as [|n IH]; intros i m l1 s W H1 Hs Hi Hc; [lia|]. cbn [map_loop].
  destruct (Z.ltb_spec i (cap m)) as [Hlt|Hge].
  - destruct (loop_item m l1 i W ltac:(lia)) as (x & Ex & Hx). rewrite (rest_step m l1 i x W ltac:(lia) Ex). rewrite Ex. cbn [bind].
    destruct (((i =? -1) && used m) || negb (isnull ko (skey x))).
    + destruct (calls_keep l _ (Hb s (skey x) (sval x)) m l1 W H1 Hs) as (m1 & rs & es & l2 & E1 & W1 & H2 & Kp & V1 & X1). rewrite E1. cbn [bind].
      specialize (Hn s (skey x) (sval x) rs). destruct (b_next _ b s (skey x) (sval x) rs) as [s1 brk]. cbn [snd] in Hn. subst brk.
      pose proof Kp as (K1 & K2 & K3 & _). destruct (IH (i + 1) m1 l2 s1 W1 H2 ltac:(lia) ltac:(lia) ltac:(lia)) as (m2 & s2 & t & l3 & E2 & W2 & X2 & H3 & F2).
      rewrite E2. cbn [bind]. exists m2, s2, ((Visit (skey x) (sval x) :: es) ++ t), l3. split; [reflexivity|]. split; [exact W2|]. split; [|split; [exact H3|]].
      * cbn [app explains]. split; [now apply Hx|]. now apply (explains_app es l1 l2).
      * cbn [app visited]. rewrite visited_app, V1. cbn [app]. constructor; [apply (same_refl ko Hl)|].
        apply (Forall2_same_trans _ (rest m1 (i + 1))); [|exact F2]. apply (rest_keeps m m1 l1 l2); [exact W|exact W1|exact Kp|lia].
    + cbn [app]. apply IH; [exact W|exact H1|exact Hs|lia|lia].
  - exists m, s, [], l1. split; [reflexivity|]. split; [exact W|]. split; [reflexivity|]. split; [exact H1|].
    unfold rest. destruct (Z.eqb_spec i (-1)); [pose proof (tb_pos _ _ _ (w_tab _ _ _ W)); lia|].
    rewrite skipn_all2; [constructor|]. pose proof (tb_len _ _ _ (w_tab _ _ _ W)). unfold zlen in *. lia.
Qed.
End Proofs.

(** C128: whatever calls the body makes, nothing is read or written outside the table, the loop ends, whatever it
    visits is in the map at that time with that value, and the map shows the bindings the calls made. *)
Theorem map_loop_safe : forall (K V : Type) (ko : keyops K) (vzero : V), lawful ko ->
  forall (S : Type) (b : body S) (m : smap K V) l (s : S), reach ko vzero m l ->
  exists n m' s' t brk l', map_loop ko vzero n b (-1) m s = Ok (m', s', t, brk) /\ explains ko l t l' /\ shows ko vzero m' l'.
Proof.
  intros K V ko vzero Hl S b m l s R. exists (Z.to_nat (2 ^ 31 + 2)).
  destruct (loop_ok ko vzero Hl b (Z.to_nat (2 ^ 31 + 2)) (-1) m l s (reach_wf ko vzero Hl m l R)) as (m' & s' & t & brk & l' & E & X & W).
  - lia.
  - rewrite Z2Nat.id; lia.
  - exists m', s', t, brk, l'. split; [exact E|]. split; [exact X|]. now apply wf_shows.
Qed.
Print Assumptions map_loop_safe.

(** C128: a body that only looks up and stores values for keys in the map: unless the table is about to grow, the loop visits
    every key once. *)
Theorem map_loop_store_partial : forall (K V : Type) (ko : keyops K) (vzero : V), lawful ko ->
  forall (S : Type) (b : body S) (m : smap K V) l (s : S), reach ko vzero m l -> map_size m < remap m ->
  (forall s k v o, In o (b_calls _ b s k v) -> match o with Get _ => True | Put k _ _ => is_in ko l k | _ => False end) ->
  (forall s k v rs, snd (b_next _ b s k v rs) = false) ->
  exists n m' s' t l' ks, map_loop ko vzero n b (-1) m s = Ok (m', s', t, false) /\ explains ko l t l' /\ shows ko vzero m' l' /\
    Permutation ks (map fst l) /\ Forall2 (fun a b => same ko a b = true) ks (visited t).
Proof.
  intros K V ko vzero Hl S b m l s R Hs Hb Hn. pose proof (reach_wf ko vzero Hl m l R) as W. pose proof (tb_pos _ _ _ (w_tab _ _ _ W)) as Hc.
  destruct (store_loop ko vzero Hl b l) with (n := Z.to_nat (cap m + 2)) (i := -1) (m := m) (l1 := l) (s := s) as (m' & s' & t & l' & E & W' & X & _ & F).
  - intros s0 k v. apply Forall_forall. intros o Ho. exact (Hb s0 k v o Ho).
  - exact Hn.
  - exact W.
  - intro k. reflexivity.
  - exact Hs.
  - lia.
  - rewrite Z2Nat.id; lia.
  - exists (Z.to_nat (cap m + 2)), m', s', t, l', (map fst (zent ko m ++ ents ko (mem m))). split; [exact E|]. split; [exact X|]. split; [now apply wf_shows|].
    split; [|exact F]. apply Permutation_map. apply W.
Qed.
Print Assumptions map_loop_store_partial.

(** C128: a body that deletes the current key visits no key twice and leaves exactly the keys not visited. *)
Theorem map_loop_delete_partial : forall (K V : Type) (ko : keyops K) (vzero : V), lawful ko ->
  forall (S : Type) (b : body S) (m : smap K V) l (s : S), reach ko vzero m l -> (forall s k v, b_calls _ b s k v = [Del k]) ->
  exists n m' s' t brk l', map_loop ko vzero n b (-1) m s = Ok (m', s', t, brk) /\ shows ko vzero m' l' /\
    distinct ko (visited t) /\ (forall k, In k (visited t) -> is_in ko l k) /\
    forall k, lookup ko k l' = if existsb (fun k' => same ko k' k) (visited t) then None else lookup ko k l.
Proof.
  intros K V ko vzero Hl S b m l s R Hb. pose proof (reach_wf ko vzero Hl m l R) as W.
  destruct (loop_ok ko vzero Hl b (Z.to_nat (2 ^ 31 + 2)) (-1) m l s W) as (m' & s' & t & brk & l' & E & X & W'); [lia|rewrite Z2Nat.id; lia|].
  exists (Z.to_nat (2 ^ 31 + 2)), m', s', t, brk, l'. split; [exact E|]. split; [now apply wf_shows|].
  assert (Eb : forall n i m s, map_loop ko vzero n b i m s = map_loop ko vzero n (deleter (b_next _ b)) i m s).
  { induction n as [|n IH]; intros i m0 s0; [reflexivity|]. cbn [map_loop]. destruct (i <? cap m0); [|reflexivity].
    destruct (if i =? -1 then Ok (zslot m0) else zload (mem m0) i) as [x| |]; cbn [bind]; try reflexivity.
    destruct (((i =? -1) && used m0) || negb (isnull ko (skey x))); [|apply IH]. cbn [deleter b_calls b_next]. rewrite Hb.
    destruct (calls_run ko vzero m0 [Del (skey x)]) as [[[m1 rs] es]| |]; cbn [bind]; try reflexivity.
    destruct (b_next _ b s0 (skey x) (sval x) rs) as [s1 [|]]; [reflexivity|]. now rewrite IH. }
  rewrite Eb in E. destruct (delete_trace ko vzero _ _ _ _ _ _ _ _ _ E) as (vs & ->). destruct (delete_explains ko Hl vs l l' X) as (D & F & L).
  assert (Ev : visited (del_trace vs) = map fst vs).
  { clear. induction vs as [|p vs IH]; [reflexivity|]. cbn [del_trace flat_map app visited map]. unfold del_trace in IH. now rewrite IH. }
  rewrite Ev. split; [exact D|]. split.
  - intros k Hk. apply in_map_iff in Hk as (p & <- & Hp). rewrite Forall_forall in F. clear E Eb. unfold is_in. rewrite (F p Hp). discriminate.
  - clear E Eb. intro k. rewrite L. replace (existsb (fun k' => same ko k' k) (map fst vs)) with (existsb (fun p => same ko (fst p) k) vs); [reflexivity|].
    clear. induction vs as [|p vs IH]; [reflexivity|]. cbn. now rewrite IH.
Qed.
Print Assumptions map_loop_delete_partial.

(** ** Examples, and what is false *)
Definition after (ops : list (mop Z Z)) (b : body unit) : option (list Z * list (lev Z Z)) :=
  match mrun ops with
  | Ok (m, _) => match map_loop ops64 0 100 b (-1) m tt with
                 | Ok (_, _, t, _) => Some (visited t, t)
                 | _ => None
                 end
  | _ => None
  end.
Definition go_on : unit -> Z -> Z -> list Z -> unit * bool := fun _ _ _ _ => (tt, false).
Example map_loop_ex : exists m rs, mrun [Put 8 80 true; Put 16 160 true; Put 0 5 true] = Ok (m, rs) /\ map_size m < remap m /\
  option_map fst (after [Put 8 80 true; Put 16 160 true; Put 0 5 true] (mk_body (fun _ k v => [Put 8 (v + 1) true; Get 16]) go_on)) = Some [0; 8; 16].
Proof. eexists _, _. split; [vm_compute; reflexivity|]. split; vm_compute; reflexivity. Qed.
(** C128, refuted: deleting the current key moves the next one into its place, and the loop misses it. *)
Theorem map_loop_delete_refuted :
  option_map fst (after [Put 8 80 true; Put 16 160 true; Put 24 240 true] (mk_body (fun _ k _ => [Del k]) go_on)) = Some [8; 24].
Proof. vm_compute. reflexivity. Qed.
Print Assumptions map_loop_delete_refuted.
(** C128, refuted: storing a value for the current key of a table that is about to grow (here 6 keys in a table of 8) makes the
    loop visit 9 twice; deleting a key already visited moves another one that was visited behind the loop's position. *)
Theorem map_loop_store_refuted :
  option_map fst (after [Put 9 1 true; Put 10 1 true; Put 3 1 true; Put 4 1 true; Put 5 1 true; Put 6 1 true]
    (mk_body (fun _ k v => [Put k (v + 1) true]) go_on)) = Some [9; 3; 4; 5; 6; 9; 10].
Proof. vm_compute. reflexivity. Qed.
Print Assumptions map_loop_store_refuted.
Theorem map_loop_twice_refuted :
  option_map fst (after [Put 7 1 true; Put 15 1 true] (mk_body (fun _ k v => if k =? 15 then [Del 7] else []) go_on)) = Some [15; 15].
Proof. vm_compute. reflexivity. Qed.
Print Assumptions map_loop_twice_refuted.
