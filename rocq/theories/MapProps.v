(** Properties C15-C21: hash map. *)
From Verif Require Import Base MapModel MapSpec MapProofs.

(** The library's key types satisfy the laws used below. *)
Lemma lxor_u32 a b : 0 <= a < 2^32 -> 0 <= b < 2^32 -> 0 <= Z.lxor a b < 2^32.
Proof.
  intros Ha Hb. split; [now apply Z.lxor_nonneg|].
  destruct (Z.eq_dec (Z.lxor a b) 0) as [->|Hn]; [lia|].
  apply Z.log2_lt_pow2; [pose proof (proj2 (Z.lxor_nonneg a b)); lia|].
  eapply Z.le_lt_trans; [apply Z.log2_lxor; lia|].
  assert (Hl : forall x, 0 <= x < 2^32 -> Z.log2 x < 32).
  { intros x Hx. destruct (Z.eq_dec x 0) as [->|]; [cbn; lia|]. apply Z.log2_lt_pow2; lia. }
  apply Z.max_lub_lt; now apply Hl.
Qed.

Theorem ops64_lawful : lawful ops64.
Proof.
  unfold lawful, ops64. cbn [knull isnull keq hashk]. repeat split; try (intros; lia).
  - intros a b H. apply Z.eqb_eq in H. now subst.
  - apply (lxor_u32 _ _ (u32_range _) (u32_range _)).
  - apply (lxor_u32 _ _ (u32_range _) (u32_range _)).
Qed.
Theorem ops32_lawful : lawful ops32.
Proof.
  unfold lawful, ops32. cbn [knull isnull keq hashk]. repeat split; try (intros; lia).
  - intros a b H. apply Z.eqb_eq in H. now subst.
  - apply (u32_range a).
  - apply (u32_range a).
Qed.
Lemma bytes_eqb_eq a : forall b, bytes_eqb a b = true <-> a = b.
Proof.
  induction a as [|x a IH]; intros [|y b]; cbn; try easy.
  rewrite andb_true_iff, Z.eqb_eq, IH. split; [intros [-> ->]|intros [= -> ->]]; auto.
Qed.
Theorem ops_str_lawful : forall c, lawful (ops_str c).
Proof.
  intro c. unfold lawful, ops_str. cbn [knull isnull keq hashk]. repeat split; try (intros; lia).
  - intro a. now apply bytes_eqb_eq.
  - intros a b H. apply bytes_eqb_eq in H. now apply bytes_eqb_eq.
  - intros a b d H1 H2. apply bytes_eqb_eq in H1, H2. apply bytes_eqb_eq. congruence.
  - intros a b H. apply bytes_eqb_eq in H. now rewrite H.
  - unfold murmurhash. cbv zeta. apply u32_range.
  - unfold murmurhash. cbv zeta. apply u32_range.
Qed.

(** C15: finite map.  [obeys] (MapSpec) says that along the history every call
    returns what the list of bindings says, and every intermediate map shows
    exactly these bindings. *)
Theorem map_refines_finite_map :
  forall (K V : Type) (ko : keyops K) (vzero : V), lawful ko ->
  forall g c lf ok m ops, 0 <= c <= 2^31 -> map_init ko vzero g c lf ok = Some m ->
  obeys ko vzero m [] ops.
Proof. intros. apply history_ok; [assumption|]. now apply (init_ok ko vzero H g c lf ok). Qed.
Print Assumptions map_refines_finite_map.
Print Assumptions ops64_lawful.
Print Assumptions ops_str_lawful.

(** The ideal map means what one expects: last binding wins. *)
Theorem map_ideal_meaning :
  forall (K V : Type) (ko : keyops K), lawful ko -> forall (l : binds) k (v : V) k',
    lookup ko k' (ideal ko l (Put k v true) false) = (if same ko k k' then Some v else lookup ko k' l) /\
    lookup ko k' (ideal ko l (Del k) false) = (if same ko k k' then None else lookup ko k' l) /\
    lookup ko k' (ideal ko l Clear false) = None.
Proof.
  intros K V ko Hl l k v k'.
  assert (Hd : lookup ko k' (remove ko k l) = if same ko k k' then None else lookup ko k' l).
  { induction l as [|[a x] l IH]; [now destruct (same ko k k')|].
    cbn [MapSpec.remove filter fst]. unfold MapSpec.lookup in *.
    fold (remove ko k l) in *. destruct (same ko a k) eqn:Ea; cbn [negb find fst option_map].
    - rewrite IH. destruct (same ko k k') eqn:Ek; [reflexivity|].
      destruct (same ko a k') eqn:Eb; [|reflexivity]. exfalso.
      rewrite (same_sym_eq ko Hl a k) in Ea. pose proof (same_trans ko Hl _ _ _ Ea Eb). congruence.
    - destruct (same ko a k') eqn:Eb; [|exact IH].
      destruct (same ko k k') eqn:Ek; [|reflexivity]. exfalso.
      rewrite (same_sym_eq ko Hl k k') in Ek. pose proof (same_trans ko Hl _ _ _ Eb Ek). congruence. }
  split; [|split; [exact Hd|reflexivity]].
  cbn [ideal]. rewrite lookup_cons. cbn [fst snd]. destruct (same ko k k') eqn:E; [reflexivity|].
  exact Hd.
Qed.
Print Assumptions map_ideal_meaning.

(** Keys 8, 16, 24, 0 collide in a table of 8 items; -3 exercises the signed
    keys; the 7th key makes the table grow. *)
Definition mrun (ops : list (mop Z Z)) : res (smap Z Z * list Z) :=
  match map_init ops64 0 (map_empty ops64 0) 0 0 true with
  | None => UB
  | Some m => foldM (fun st o => let* (m', r) := map_step ops64 0 (fst st) o in Ok (m', snd st ++ [r])) (m, []) ops
  end.
Example map_refines_example :
  match mrun [Put 8 80 true; Put 16 160 true; Put 24 240 true; Put 0 5 true; Put 8 81 true;
         Get 24; Del 8; Get 16; Get 8; Get 0; Put (-3) 9 true; Put 7 70 true; Put 15 150 true; Put 23 230 true;
         Get 24; Get (-3); Del 0; Get 0]
  with
  | Ok (m, rets) => rets = [0;0;0;0;80; 240;81;160;0;5; 0;0;0;0; 240;9;5;0] /\ cap m = 16 /\ size m = 6 /\ remap m = 12
  | _ => False
  end.
Proof. vm_compute. repeat split. Qed.

(** C16. *)
Theorem map_size_counts :
  forall (K V : Type) (ko : keyops K) (vzero : V), lawful ko ->
  forall m l, reach ko vzero m l ->
  exists ks : list K,
    map_size m = zlen ks /\
    (forall i j a b, zget ks i = Some a -> zget ks j = Some b -> same ko a b = true -> i = j) /\
    (forall k, (exists m' v, map_get ko vzero m k = Ok (m', v) /\ found m' = true) <->
               (exists a, In a ks /\ same ko a k = true)).
Proof.
  intros K V ko vzero Hl m l Hr. pose proof (reach_wf ko vzero Hl m l Hr) as W.
  pose proof (w_uniq _ _ _ W) as Hu. exists (map fst l).
  split; [rewrite zlen_map; apply W|]. split.
  - clear - Hu Hl. induction l as [|p l IH]; intros i j a b Ha Hb Hs.
    + apply zget_Some_range in Ha. change (zlen (map fst (@nil (K * V)))) with 0 in Ha. lia.
    + destruct Hu as [Hp Hu]. cbn [map] in *.
      rewrite zget_cons in Ha, Hb.
      destruct (Z.eqb_spec i 0), (Z.eqb_spec j 0); try lia.
      * injection Ha as <-. apply zget_In in Hb. apply in_map_iff in Hb as (q & <- & Hq).
        specialize (Hp q Hq). congruence.
      * injection Hb as <-. apply zget_In in Ha. apply in_map_iff in Ha as (q & <- & Hq).
        specialize (Hp q Hq). rewrite (same_sym_eq ko Hl) in Hs. congruence.
      * specialize (IH Hu _ _ _ _ Ha Hb Hs). lia.
  - intro k. rewrite (get_ok ko vzero Hl m l k W). split.
    + intros (m' & v & E & Hf). injection E as <- <-. cbn in Hf.
      unfold MapSpec.lookup in Hf. destruct (find _ l) as [p|] eqn:Ef; [|discriminate].
      apply find_some in Ef as [Hi Hs]. exists (fst p). split; [now apply in_map|exact Hs].
    + intros (a & Ha & Hs). apply in_map_iff in Ha as (p & <- & Hp).
      eexists _, _. split; [reflexivity|]. cbn.
      now rewrite (lookup_in ko Hl k (snd p) p l Hu Hp Hs eq_refl).
Qed.
Print Assumptions map_size_counts.

Example map_size_example :
  match mrun [Put 8 80 true; Put 0 5 true; Put 8 81 true; Put 16 1 true; Del 99; Del 8] with
  | Ok (m, _) => map_size m = 2
  | _ => False
  end.
Proof. vm_compute. reflexivity. Qed.

(** C17: all three loops go over the same sequence of bindings: each present
    binding once, with pairwise different keys. *)
Theorem map_foreach_visits :
  forall (K V : Type) (ko : keyops K) (vzero : V), lawful ko ->
  forall m l, reach ko vzero m l ->
  exists l' : list (K * V),
    zlen l' = map_size m /\
    (forall i j p q, zget l' i = Some p -> zget l' j = Some q -> same ko (fst p) (fst q) = true -> i = j) /\
    (forall k v, In (k, v) l' -> exists m', map_get ko vzero m k = Ok (m', v) /\ found m' = true) /\
    (forall (S : Type) (b : S -> K -> V -> S * bool) s, map_foreach ko m b s = Ok (visit b s l')) /\
    (forall (S : Type) (b : S -> K -> S * bool) s,
       map_foreach_key ko m b s = Ok (visit (fun s k _ => b s k) s l')) /\
    (forall (S : Type) (b : S -> V -> S * bool) s,
       map_foreach_value ko m b s = Ok (visit (fun s _ v => b s v) s l')).
Proof.
  intros K V ko vzero Hl m l Hr. pose proof (reach_wf ko vzero Hl m l Hr) as W.
  pose proof (uniq_perm ko Hl _ _ (Permutation_sym (w_ents _ _ _ W)) (w_uniq _ _ _ W)) as Hu.
  exists (zent ko m ++ ents ko (mem m)). split; [|split; [|split; [|split; [|split]]]].
  - unfold map_size. rewrite (w_size _ _ _ W). unfold zlen. now rewrite (Permutation_length (w_ents _ _ _ W)).
  - remember (zent ko m ++ ents ko (mem m)) as r eqn:Er. clear - Hu Hl.
    induction r as [|p r IH]; intros i j a b Ha Hb Hs.
    + apply zget_Some_range in Ha. change (zlen (@nil (K * V))) with 0 in Ha. lia.
    + destruct Hu as [Hp Hu]. rewrite zget_cons in Ha, Hb.
      destruct (Z.eqb_spec i 0), (Z.eqb_spec j 0); try lia.
      * injection Ha as <-. apply zget_In in Hb. specialize (Hp b Hb). congruence.
      * injection Hb as <-. apply zget_In in Ha. specialize (Hp a Ha).
        rewrite (same_sym_eq ko Hl) in Hs. congruence.
      * specialize (IH Hu _ _ _ _ Ha Hb Hs). lia.
  - intros k v Hi. rewrite (get_ok ko vzero Hl m l k W).
    rewrite (lookup_in ko Hl k v (k, v) l (w_uniq _ _ _ W)
               (Permutation_in _ (w_ents _ _ _ W) Hi) (same_refl ko Hl k) eq_refl).
    eexists. split; reflexivity.
  - now apply (foreach_ok ko Hl m l).
  - intros. rewrite foreach_key_eq. now apply (foreach_ok ko Hl m l).
  - intros. rewrite foreach_value_eq. now apply (foreach_ok ko Hl m l).
Qed.
Print Assumptions map_foreach_visits.

Example map_foreach_example :
  match mrun [Put 8 80 true; Put 0 5 true; Put 16 160 true; Put 3 30 true; Del 8] with
  | Ok (m, _) =>
      map_foreach ops64 m (fun s k v => (s ++ [(k, v)], false)) [] = Ok [(0, 5); (16, 160); (3, 30)] /\
      map_foreach_key ops64 m (fun s k => (s ++ [k], k =? 16)) [] = Ok [0; 16] /\
      map_foreach_value ops64 m (fun s v => (s + v, false)) 0 = Ok 195
  | _ => False
  end.
Proof. vm_compute. repeat split. Qed.

(** C18: fewer occupied items than items, and no call leaves the table (UB) or
    probes more than capacity + 1 items (Fuel). *)
Theorem map_probing_safe :
  forall (K V : Type) (ko : keyops K) (vzero : V), lawful ko ->
  forall m l, reach ko vzero m l ->
    zlen (filter (fun s => negb (ko.(isnull) (skey s))) (mem m)) < cap m /\ zlen (mem m) = cap m /\
    forall o : mop K V, exists m' ret, map_step ko vzero m o = Ok (m', ret).
Proof.
  intros K V ko vzero Hl m l Hr. pose proof (reach_wf ko vzero Hl m l Hr) as W.
  pose proof (tb_len _ _ _ (w_tab _ _ _ W)) as Hlen.
  split; [|split; [exact Hlen|]].
  - pose proof (wf_room ko m l W) as H. rewrite Hlen in H.
    replace (zlen (filter _ (mem m))) with (zlen (ents ko (mem m))); [exact H|].
    unfold zlen. f_equal. clear. induction (mem m) as [|s t IH]; [reflexivity|].
    cbn [ents flat_map filter]. unfold ent at 1, occ. destruct (negb _); cbn [app length]; now rewrite <- IH.
  - intro o. destruct (step_ok ko vzero Hl m l o W) as (m' & ret & H & _). eauto.
Qed.
Print Assumptions map_probing_safe.

(** A table with load factor 95 holding a full probe chain that wraps around. *)
Example map_probing_example :
  match map_init ops64 0 (map_empty ops64 0) 8 95 true with
  | Some m0 =>
      match foldM (fun m o => let* (m', _) := map_step ops64 0 m o in Ok m') m0
              [Put 7 1 true; Put 15 2 true; Put 23 3 true; Put 31 4 true; Put 39 5 true; Put 47 6 true; Put 55 7 true] with
      | Ok m => cap m = 8 /\ size m = 7 /\
          match map_get ops64 0 m 63 with Ok (m', v) => v = 0 /\ found m' = false | _ => False end /\
          match map_del ops64 0 m 7 with Ok (m', v) => v = 1 /\ found m' = true | _ => False end
      | _ => False
      end
  | None => False
  end.
Proof. vm_compute. repeat split. Qed.

(** C19. *)
Theorem map_put_atomic :
  forall (K V : Type) (ko : keyops K) (vzero : V), lawful ko ->
  forall m l, reach ko vzero m l ->
  forall k v ok, exists m' ret, map_put ko vzero m k v ok = Ok (m', ret) /\
    (oom m' = true -> ret = vzero /\ shows ko vzero m l /\ shows ko vzero m' l) /\
    (oom m' = false -> shows ko vzero m' ((k, v) :: remove ko k l)) /\
    (ok = true -> cap m < 2^31 -> oom m' = false).
Proof.
  intros K V ko vzero Hl m l Hr k v ok. pose proof (reach_wf ko vzero Hl m l Hr) as W.
  destruct (put_ok ko vzero Hl m l k v ok W) as (m' & ret & Hp & H1 & H2).
  exists m', ret. split; [exact Hp|]. split; [|split].
  - intro Ho. destruct (H1 Ho) as (-> & W' & _). split; [reflexivity|].
    split; now apply wf_shows.
  - intro Ho. destruct (H2 Ho) as (_ & W' & _). now apply wf_shows.
  - intros -> Hc. destruct (oom m') eqn:E; [|reflexivity].
    destruct (H1 eq_refl) as (_ & _ & [H|H]); [discriminate|lia].
Qed.
Print Assumptions map_put_atomic.

Example map_put_atomic_example :
  match mrun [Put 1 10 true; Put 2 20 true; Put 3 30 true; Put 4 40 true; Put 5 50 true; Put 6 60 true;
              Put 7 70 false; Get 7; Get 6; Put 7 71 true; Get 7] with
  | Ok (m, rets) => rets = [0;0;0;0;0;0; 0;0;60;0;71] /\ oom m = false /\ size m = 7
  | _ => False
  end /\
  match mrun [Put 1 10 true; Put 2 20 true; Put 3 30 true; Put 4 40 true; Put 5 50 true; Put 6 60 true; Put 1 11 false] with
  | Ok (m, _) => oom m = true /\ size m = 6
  | _ => False
  end.
Proof. vm_compute. repeat split. Qed.

(** C20: keys are pointers [p], [q] to strings with contents [c p], [c q]. *)
Theorem map_string_keys_by_contents :
  forall (V : Type) (vzero : V) (c : Z -> list Z) m l,
  reach (ops_str c) vzero m l ->
  forall p q v m1 r1, p <> 0 -> q <> 0 ->
  map_put (ops_str c) vzero m p v true = Ok (m1, r1) -> oom m1 = false ->
  exists m2 r2 m0 r0,
    map_get (ops_str c) vzero m1 q = Ok (m2, r2) /\ map_get (ops_str c) vzero m q = Ok (m0, r0) /\
    (c p = c q -> r2 = v /\ found m2 = true) /\
    (c p <> c q -> r2 = r0 /\ found m2 = found m0).
Proof.
  intros V vzero c m l Hr p q v m1 r1 Hp Hq Hput Ho.
  pose proof (ops_str_lawful c) as Hl. pose proof (reach_wf _ vzero Hl m l Hr) as W.
  destruct (put_ok _ vzero Hl m l p v true W) as (m1' & r1' & Hp1 & _ & H2).
  rewrite Hput in Hp1. injection Hp1 as <- <-. destruct (H2 Ho) as (_ & W1 & _).
  eexists _, _, _, _. split; [apply (get_ok _ vzero Hl m1 _ q W1)|].
  split; [apply (get_ok _ vzero Hl m l q W)|].
  destruct (map_ideal_meaning Z V (ops_str c) Hl l p v q) as [Hm _]. cbn [ideal] in Hm. rewrite Hm.
  assert (Hs : same (ops_str c) p q = bytes_eqb (c p) (c q)).
  { unfold same, ops_str. cbn [isnull keq]. apply Z.eqb_neq in Hp, Hq. now rewrite Hp, Hq. }
  rewrite Hs. cbn [found set_found]. split; intro Hc.
  - apply bytes_eqb_eq in Hc. rewrite Hc. split; reflexivity.
  - destruct (bytes_eqb (c p) (c q)) eqn:E; [apply bytes_eqb_eq in E; contradiction|]. split; reflexivity.
Qed.
Print Assumptions map_string_keys_by_contents.

(** "bind" and "cjme" have the same murmurhash; pointers 1 and 3 hold equal
    contents. *)
Definition strs (p : Z) : list Z :=
  if p =? 1 then [98; 105; 110; 100] else if p =? 2 then [99; 106; 109; 101]
  else if p =? 3 then [98; 105; 110; 100] else [].
Example map_string_example :
  murmurhash (strs 1) = murmurhash (strs 2) /\
  match map_init (ops_str strs) 0 (map_empty (ops_str strs) 0) 0 0 true with
  | Some m0 =>
      match foldM (fun st o => let* (m', r) := map_step (ops_str strs) 0 (fst st) o in Ok (m', snd st ++ [r])) (m0, [])
              [Put 1 10 true; Get 2; Put 2 20 true; Get 3; Put 3 30 true; Get 1; Get 2; Del 1; Get 3; Get 2] with
      | Ok (m, rets) => rets = [0; 0; 0; 10; 10; 30; 20; 30; 0; 20] /\ size m = 1
      | _ => False
      end
  | None => False
  end.
Proof. vm_compute. repeat split. Qed.

(** C21.  For capacities up to 2^31 the contract holds; the full statement
    (every 32-bit capacity) is refuted below. *)
Theorem map_init_contract_partial :
  forall (K V : Type) (ko : keyops K) (vzero : V), lawful ko ->
  forall g c lf ok, 0 <= c <= 2^31 ->
    (forall m, map_init ko vzero g c lf ok = Some m ->
       shows ko vzero m [] /\ c <= cap m /\ forall o, exists m' ret, map_step ko vzero m o = Ok (m', ret)) /\
    ((lf = 0 \/ 25 <= lf <= 95) <-> exists m, map_init ko vzero g c lf true = Some m) /\
    (map_init ko vzero g c lf ok = None -> ok = false \/ ~ (lf = 0 \/ 25 <= lf <= 95)).
Proof.
  intros K V ko vzero Hl g c lf ok Hc.
  assert (Hacc : (lf = 0 \/ 25 <= lf <= 95) -> exists m, map_init ko vzero g c lf true = Some m).
  { intro Hlf. unfold map_init. set (f := if lf =? 0 then 75 else lf).
    assert (Hf : 25 <= f <= 95) by (unfold f; destruct (Z.eqb_spec lf 0); lia).
    replace ((95 <? f) || (f <? 25)) with false by lia.
    destruct (Z.eqb_spec c 0); [eauto|]. unfold map_alloc.
    destruct (Z.ltb_spec (SC_MAP_MAX / 1) c) as [H|H]; [|eauto].
    change (SC_MAP_MAX / 1) with (2^32 - 1) in H. lia. }
  split; [|split; [split; [exact Hacc|]|]].
  - intros m Hm. pose proof (init_ok ko vzero Hl g c lf ok m Hc Hm) as W.
    split; [now apply wf_shows|]. split.
    + unfold map_init in Hm. destruct (_ || _); [discriminate|].
      destruct (Z.eqb_spec c 0) as [->|]; [injection Hm as <-; cbn; lia|].
      unfold map_alloc in Hm. destruct (_ <? _); [discriminate|].
      destruct ok; [|discriminate]. injection Hm as <-. cbn [cap].
      destruct (alloc_pow2 c Hc) as (k & _ & -> & H). exact H.
    + intro o. destruct (step_ok ko vzero Hl m [] o W) as (m' & ret & H & _). eauto.
  - intros (m & Hm). unfold map_init in Hm. destruct (Z.eqb_spec lf 0); [now left|right].
    destruct ((95 <? lf) || (lf <? 25)) eqn:E; [discriminate|]. apply orb_false_iff in E. lia.
  - intro Hn. destruct ok; [right|now left]. intro Hlf. destruct (Hacc Hlf) as (m & Hm). congruence.
Qed.
Print Assumptions map_init_contract_partial.

(** For a capacity above 2^31 the rounding wraps to 0: init succeeds with an
    empty table and the first get reads outside it. *)
Theorem map_init_huge_refuted :
  exists c m, 2^31 < c < 2^32 /\ map_init ops64 0 (map_empty ops64 0) c 0 true = Some m /\
    cap m = 0 /\ map_get ops64 0 m 1 = UB /\ map_del ops64 0 m 1 = UB.
Proof. exists (2^31 + 1). eexists. split; [lia|]. split; [reflexivity|]. vm_compute. auto. Qed.
Print Assumptions map_init_huge_refuted.

Example map_init_example :
  option_map cap (map_init ops64 0 (map_empty ops64 0) 0 0 true) = Some 1 /\
  option_map cap (map_init ops64 0 (map_empty ops64 0) 100 25 true) = Some 128 /\
  map_init ops64 0 (map_empty ops64 0) 100 24 true = None /\
  map_init ops64 0 (map_empty ops64 0) 100 96 true = None.
Proof. vm_compute. auto. Qed.
