(** Properties C129-C130: loops over an array or queue whose body changes it. *)
From Coq Require Import ZifyBool ZifyNat.
From Verif Require Import Base ArrayModel ArraySpec QueueModel QueueSpec.
From Verif Require ArrayProofs QueueProofs QueueProps.
From Verif Require Import SeqLoopModel.

(** ** Array *)
Definition is_add {A} (o : op A) : Prop := match o with Add _ _ => True | _ => False end.

Lemma skipn_zget {A} (l : list A) i x : 0 <= i -> zget l i = Some x -> skipn (Z.to_nat i) l = x :: skipn (Z.to_nat (i + 1)) l.
Proof.
  intros Hi. unfold zget. destruct (i <? 0) eqn:E; [lia|]. replace (Z.to_nat (i + 1)) with (Datatypes.S (Z.to_nat i)) by lia.
  generalize (Z.to_nat i). clear. intro n. revert l. induction n as [|n IH]; intros [|y l]; cbn; try discriminate; [congruence|]. apply IH.
Qed.

(** A body that looks for an item, deletes it by its position and leaves the loop; the user's state counts the items. *)
Definition finder {A} (p : A -> bool) : sbody A (op A) Z :=
  mk_sbody (fun i x => if p x then [Del i] else []) (fun i x => (i + 1, p x)).
Fixpoint remove_first {A} (p : A -> bool) (l : list A) : list A :=
  match l with [] => [] | x :: r => if p x then r else x :: remove_first p r end.
Fixpoint up_to {A} (p : A -> bool) (l : list A) : list A :=
  match l with [] => [] | x :: r => x :: if p x then [] else up_to p r end.

(** A body that deletes the last item when it is at position [k]. *)
Definition dropper {A} (k : Z) : sbody A (op A) Z :=
  mk_sbody (fun i _ => if i =? k then [ArrayModel.DelLast] else []) (fun i _ => (i + 1, false)).

Section Array.
Context {A S : Type} (sz : Z) (Hsz : 1 <= sz) (H8 : 8 * sz < 2^64).
Notation wf := (ArrayProofs.wf sz).
Implicit Types (a : arr A) (l : list A) (b : sbody A (op A) S).

Lemma adds_ok ops : Forall is_add ops -> forall a l, wf a l ->
  exists a' ys, foldM (arr_step sz) a ops = Ok a' /\ wf a' (l ++ ys) /\ (length ys <= length ops)%nat.
Proof.
  induction 1 as [|o ops Ho _ IH]; intros a l W.
  - exists a, []. rewrite app_nil_r. cbn. auto.
  - destruct o as [x ok| | | |]; try contradiction. cbn [foldM arr_step].
    destruct (ArrayProofs.add_ok sz a l x ok Hsz H8 W) as (a1 & -> & _ & W1 & _). cbn [bind].
    destruct (IH _ _ W1) as (a2 & ys & -> & W2 & Hn). destruct (arr_oom a1).
    + exists a2, ys. cbn [length]. auto.
    + exists a2, (x :: ys). rewrite <- app_assoc in W2. cbn [length]. split; [reflexivity|]. split; [exact W2|lia].
Qed.

Lemma add_loop b (mu : S -> nat) :
  (forall s x, Forall is_add (sb_calls b s x)) ->
  (forall s x, (mu (fst (sb_next b s x)) + length (sb_calls b s x) <= mu s)%nat) ->
  forall n i a l s, wf a l -> 0 <= i <= zlen l -> (Z.to_nat (zlen l - i) + mu s < n)%nat ->
  exists a' s' t brk ys rest, arr_loop sz n b i a s = Ok (a', s', t, brk) /\ wf a' (l ++ ys) /\ (length ys <= mu s)%nat /\
    skipn (Z.to_nat i) (l ++ ys) = t ++ rest /\ (brk = false -> rest = []).
Proof.
  intros Ha Hm. induction n as [|n IH]; intros i a l s W Hi Hf; [lia|]. cbn [arr_loop].
  pose proof W as (W1 & W2 & W3 & W4 & W5). rewrite W1. destruct (i =? zlen l) eqn:E.
  - exists a, s, [], false, [], []. rewrite app_nil_r. split; [reflexivity|]. split; [exact W|]. cbn [length]. split; [lia|]. split; [|auto].
    apply skipn_all2. unfold zlen in *. lia.
  - destruct (zget l i) as [x|] eqn:Ex.
    2:{ exfalso. destruct (zget_in_range l i) as (y & Hy); [lia|congruence]. }
    rewrite (zread_ok _ _ _ (W5 _ _ Ex)). cbn [bind].
    destruct (adds_ok (sb_calls b s x) (Ha s x) a l W) as (a1 & ys & -> & Wa & Hy). cbn [bind]. pose proof (Hm s x) as Hmx.
    assert (Hsk : forall ys, skipn (Z.to_nat i) (l ++ ys) = x :: skipn (Z.to_nat (i + 1)) (l ++ ys)).
    { intro zs. apply skipn_zget; [lia|]. rewrite zget_app1 by lia. exact Ex. }
    destruct (sb_next b s x) as [s1 [|]]; cbn [fst] in Hmx.
    + exists a1, s1, [x], true, ys, (skipn (Z.to_nat (i + 1)) (l ++ ys)). split; [reflexivity|]. split; [exact Wa|]. split; [lia|].
      split; [apply Hsk|discriminate].
    + assert (i + 1 <= 2^64 - 1). { pose proof (zlen_nonneg l). nia. }
      rewrite u64_small by lia.
      destruct (IH (i + 1) a1 (l ++ ys) s1 Wa) as (a' & s' & t & brk & zs & rest & -> & Wz & Hz & Hs & Hr).
      * rewrite zlen_app. pose proof (zlen_nonneg ys). lia.
      * rewrite zlen_app. unfold zlen in *. lia.
      * cbn [bind]. exists a', s', (x :: t), brk, (ys ++ zs), rest. rewrite app_assoc. split; [reflexivity|]. split; [exact Wz|].
        rewrite app_length. split; [lia|]. split; [|exact Hr]. rewrite <- app_assoc in Hs |- *. rewrite Hsk, Hs. reflexivity.
Qed.

Lemma find_loop (p : A -> bool) r : forall n done a, wf a (done ++ r) -> (length r < n)%nat ->
  exists a' s', arr_loop sz n (finder p) (zlen done) a (zlen done) = Ok (a', s', up_to p r, existsb p r) /\ wf a' (done ++ remove_first p r).
Proof.
  induction r as [|x r IH]; intros n done a W Hn; (destruct n as [|n]; [cbn [length] in Hn; lia|]); cbn [arr_loop]; pose proof W as (W1 & W2 & W3 & W4 & W5).
  - rewrite W1, app_nil_r, Z.eqb_refl. exists a, (zlen done). cbn [up_to existsb remove_first]. auto.
  - rewrite zlen_app, zlen_cons in *. pose proof (zlen_nonneg done). pose proof (zlen_nonneg r).
    destruct (zlen done =? size a) eqn:E; [lia|].
    assert (Hx : zget (done ++ x :: r) (zlen done) = Some x). { rewrite zget_app2 by lia. now rewrite Z.sub_diag. }
    rewrite (zread_ok _ _ _ (W5 _ _ Hx)). cbn [bind finder sb_calls sb_next up_to existsb remove_first]. destruct (p x) eqn:Ep; cbn [foldM bind orb].
    + cbn [arr_step]. destruct (ArrayProofs.del_ok sz a (done ++ x :: r) (zlen done) Hsz W) as (a1 & -> & Wd).
      { rewrite zlen_app, zlen_cons. lia. }
      cbn [bind]. exists a1, (zlen done + 1). split; [reflexivity|]. replace (done ++ r) with (remove_at (zlen done) (done ++ x :: r)); [exact Wd|].
      unfold remove_at, zlen. rewrite Nat2Z.id. rewrite firstn_app, firstn_all, Nat.sub_diag. cbn [firstn]. rewrite app_nil_r. f_equal.
      rewrite skipn_app. rewrite skipn_all2 by lia. replace (Datatypes.S (length done) - length done)%nat with 1%nat by lia. reflexivity.
    + rewrite u64_small by nia. destruct (IH n (done ++ [x]) a) as (a' & s' & E' & W').
      * rewrite <- app_assoc. exact W.
      * cbn [length] in Hn. lia.
      * rewrite zlen_app, zlen_cons, zlen_nil in E'. replace (zlen done + (0 + 1)) with (zlen done + 1) in E' by lia. rewrite E'. cbn [bind].
        exists a', s'. split; [reflexivity|]. rewrite <- app_assoc in W'. exact W'.
Qed.

Lemma past_end k n : forall i a, k < i -> size a < i -> cap a = zlen (elems a) -> cap a < 2^64 ->
  (Z.to_nat (zlen (elems a) - i) < n)%nat -> arr_loop sz n (@dropper A k) i a i = UB.
Proof.
  induction n as [|n IH]; intros i a Hk Hi Hc Hm Hn; [lia|]. cbn [arr_loop]. destruct (i =? size a) eqn:E; [lia|].
  unfold zread. destruct (zget (elems a) i) as [[x|]|] eqn:Ex; [|reflexivity|reflexivity].
  cbn [bind dropper sb_calls sb_next]. destruct (i =? k) eqn:Ek; [lia|]. cbn [foldM bind]. apply zget_Some_range in Ex.
  rewrite u64_small by lia. fold (@dropper A k). rewrite IH by (auto; lia). reflexivity.
Qed.

Lemma drop_loop r : forall n done a, wf a (done ++ r) -> r <> [] -> (Z.to_nat (cap a) + 1 < n + length done)%nat ->
  arr_loop sz n (@dropper A (zlen done + zlen r - 1)) (zlen done) a (zlen done) = UB.
Proof.
  induction r as [|x r IH]; intros n done a W Hr Hn; [congruence|]. pose proof W as (W1 & W2 & W3 & W4 & W5).
  pose proof (zlen_nonneg done). pose proof (zlen_nonneg r). rewrite zlen_app, zlen_cons in *.
  destruct n as [|n]; [unfold zlen in *; lia|]. cbn [arr_loop].
  destruct (zlen done =? size a) eqn:E; [lia|].
  assert (Hx : zget (done ++ x :: r) (zlen done) = Some x). { rewrite zget_app2 by lia. now rewrite Z.sub_diag. }
  rewrite (zread_ok _ _ _ (W5 _ _ Hx)). cbn [bind dropper sb_calls sb_next].
  assert (cap a < 2^64) by nia. rewrite u64_small by lia.
  destruct (zlen done =? zlen done + (zlen r + 1) - 1) eqn:Ed; cbn [foldM bind].
  - cbn [arr_step]. unfold arr_del_last. destruct (size a =? 0) eqn:E0; [lia|]. cbn [bind]. fold (@dropper A (zlen done + (zlen r + 1) - 1)).
    rewrite past_end; [reflexivity|lia|cbn [size]; lia|exact W2|exact H1|]. cbn [elems]. unfold zlen in *. lia.
  - specialize (IH n (done ++ [x]) a). rewrite <- app_assoc in IH. cbn [app] in IH.
    rewrite zlen_app, zlen_cons, zlen_nil, app_length in IH. cbn [length] in IH.
    replace (zlen done + (0 + 1) + zlen r - 1) with (zlen done + (zlen r + 1) - 1) in IH by lia.
    replace (zlen done + (0 + 1)) with (zlen done + 1) in IH by lia. rewrite IH; [reflexivity|exact W| |lia].
    destruct r; [rewrite zlen_nil in Ed; lia|discriminate].
Qed.
End Array.

(** C129: a body that only adds.  [mu] bounds how many items it adds from a state on.  The loop ends, and without a break it has
    visited the items of the array, those it added included; with a break the first ones. *)
Theorem array_loop_add_partial : forall (A S : Type) (sz : Z) (ops : list (op A)) (a : arr A) (b : sbody A (op A) S) (mu : S -> nat) (s : S),
  1 <= sz -> 8 * sz < 2^64 ->
  (forall i, In (Del i) ops \/ In (DelUnordered i) ops -> 0 <= i < 2^64) ->
  foldM (arr_step sz) arr_init ops = Ok a ->
  (forall s x, Forall is_add (sb_calls b s x)) ->
  (forall s x, (mu (fst (sb_next b s x)) + length (sb_calls b s x) <= mu s)%nat) ->
  exists n a' s' t brk l ys rest, arr_loop sz n b 0 a s = Ok (a', s', t, brk) /\
    shows a l /\ shows a' (l ++ ys) /\ l ++ ys = t ++ rest /\ (brk = false -> rest = []) /\ (length ys <= mu s)%nat.
Proof.
  intros A S sz ops a b mu s Hsz H8 Hin Hr Ha Hm.
  destruct (ArrayProofs.reachable_wf sz ops Hsz H8 arr_init [] a (ArrayProofs.wf_init sz Hsz) Hr Hin) as (l & W).
  destruct (add_loop sz Hsz H8 b mu Ha Hm (Datatypes.S (length l + mu s)) 0 a l s W) as (a' & s' & t & brk & ys & rest & E & W' & Hy & Ht & Hb).
  - pose proof (zlen_nonneg l). lia.
  - unfold zlen. lia.
  - exists (Datatypes.S (length l + mu s)), a', s', t, brk, l, ys, rest. split; [exact E|].
    split; [now apply (ArrayProofs.wf_shows sz)|]. split; [now apply (ArrayProofs.wf_shows sz)|]. auto.
Qed.
Print Assumptions array_loop_add_partial.

(** C129: a body that deletes the item it looks for and leaves the loop. *)
Theorem array_loop_find_partial : forall (A : Type) (sz : Z) (ops : list (op A)) (a : arr A) (p : A -> bool),
  1 <= sz -> 8 * sz < 2^64 ->
  (forall i, In (Del i) ops \/ In (DelUnordered i) ops -> 0 <= i < 2^64) ->
  foldM (arr_step sz) arr_init ops = Ok a ->
  exists n a' s' l, arr_loop sz n (finder p) 0 a 0 = Ok (a', s', up_to p l, existsb p l) /\ shows a l /\ shows a' (remove_first p l).
Proof.
  intros A sz ops a p Hsz H8 Hin Hr.
  destruct (ArrayProofs.reachable_wf sz ops Hsz H8 arr_init [] a (ArrayProofs.wf_init sz Hsz) Hr Hin) as (l & W).
  destruct (find_loop sz Hsz p l (Datatypes.S (length l)) [] a W) as (a' & s' & E & W'); [lia|].
  exists (Datatypes.S (length l)), a', s', l. rewrite zlen_nil in E. split; [exact E|]. split; now apply (ArrayProofs.wf_shows sz).
Qed.
Print Assumptions array_loop_find_partial.

Example array_loop_ex :
  match foldM (arr_step 4) arr_init (map (fun n => Add (Z.of_nat n) true) (seq 1 8)) with
  | Ok a => option_map snd (match arr_loop 4 20 (mk_sbody (fun n x => if (n <? 3) then [Add (x * 10) true] else []) (fun n _ => (n + 1, false))) 0 a 0 with
                     Ok (a, n, t, brk) => Some (n, t) | _ => None end) = Some [1; 2; 3; 4; 5; 6; 7; 8; 10; 20; 30] /\
            match arr_loop 4 20 (finder (fun x => x =? 3)) 0 a 0 with Ok (a, _, t, brk) => t = [1; 2; 3] /\ brk = true /\ size a = 7 /\ arr_at a 2 = Ok 4 | _ => False end
  | _ => False
  end.
Proof. vm_compute. repeat split; reflexivity. Qed.

(** C129, refuted: for no array with an item may the body delete the last item when it is at it (and go on): the position passes
    the size and the loop runs over the end of the block. *)
Theorem array_loop_shrink_refuted : forall (A : Type) (sz : Z) (ops : list (op A)) (a : arr A),
  1 <= sz -> 8 * sz < 2^64 ->
  (forall i, In (Del i) ops \/ In (DelUnordered i) ops -> 0 <= i < 2^64) ->
  foldM (arr_step sz) arr_init ops = Ok a -> arr_size a <> 0 ->
  exists n, arr_loop sz n (dropper (arr_size a - 1)) 0 a 0 = UB.
Proof.
  intros A sz ops a Hsz H8 Hin Hr Hz.
  destruct (ArrayProofs.reachable_wf sz ops Hsz H8 arr_init [] a (ArrayProofs.wf_init sz Hsz) Hr Hin) as (l & W).
  exists (Z.to_nat (cap a) + 2)%nat. pose proof (drop_loop sz Hsz H8 l (Z.to_nat (cap a) + 2) [] a W) as D.
  destruct W as (W1 & _). unfold arr_size in *. rewrite W1 in *. rewrite zlen_nil in D. cbn [length] in D. replace (0 + zlen l - 1) with (zlen l - 1) in D by lia.
  apply D; [intros ->; rewrite zlen_nil in Hz; congruence|lia].
Qed.
Print Assumptions array_loop_shrink_refuted.
(** Also refuted: deleting the current item before the end misses the next one. *)
Theorem array_loop_skip_refuted :
  match foldM (arr_step 4) arr_init (map (fun n => Add (Z.of_nat n) true) (seq 1 5)) with
  | Ok a => match arr_loop 4 20 (mk_sbody (fun i x => if x =? 2 then [Del i] else []) (fun i x => (i + 1, false))) 0 a 0 with
            | Ok (_, _, t, _) => t = [1; 2; 4; 5] | _ => False end
  | _ => False
  end.
Proof. vm_compute. reflexivity. Qed.
Print Assumptions array_loop_skip_refuted.

(** ** Queue *)
(** Ideal work list: take the first item, append what the body adds, until nothing is left or a break.
    [fifo add next l s t r s']: from [l] and [s] the items [t] are taken, [r] is left. *)
Inductive fifo {A S} (add : S -> A -> list A) (next : S -> A -> S * bool) : list A -> S -> list A -> list A -> S -> bool -> Prop :=
| fifo_end s : fifo add next [] s [] [] s false
| fifo_break x l s s' : next s x = (s', true) -> fifo add next (x :: l) s [x] (l ++ add s x) s' true
| fifo_go x l s s1 t r s' brk : next s x = (s1, false) -> fifo add next (l ++ add s x) s1 t r s' brk -> fifo add next (x :: l) s (x :: t) r s' brk.

(** The body of such a loop: sc_queue_del_first, then some sc_queue_add_last. *)
Definition worker {A S} (add : S -> A -> list A) (next : S -> A -> S * bool) : sbody A (qop A) S :=
  mk_sbody (fun s x => DelFirst :: map (fun y => AddLast y true) (add s x)) next.

Section Queue.
Context {A S : Type} (zero : A).
Notation qwf := QueueProofs.qwf.

Lemma add_room q (l : list A) x ok : qwf q l -> qoom q = false -> zlen l + 1 < qcap q ->
  exists q', q_add_last zero q x ok = Ok q' /\ qwf q' (l ++ [x]) /\ qoom q' = false /\ qcap q' = qcap q /\ qfirst q' = qfirst q.
Proof.
  intros W Ho Hr. pose proof (QueueProofs.qcap_range _ _ W) as Hc. pose proof (zlen_nonneg l) as Hl.
  destruct (QueueProofs.add_last_ok zero q l x ok W) as (q' & E & W' & _). exists q'.
  assert (Ee : q_expand zero q ok = Ok q).
  { pose proof W as (_ & He & Hf & Hz & Hla & _). unfold q_expand.
    assert (Hb : 0 <= qlast q < qcap q).
    { clear - Hla Hf Hz Hl. rewrite Hla. unfold QueueProofs.wrap. repeat (match goal with |- context [if ?c then _ else _] => destruct c eqn:? end); lia. }
    rewrite (QueueProofs.mask_wrap q l) by (auto; lia).
    destruct (_ =? qfirst q) eqn:Ef; [|reflexivity]. exfalso. rewrite Hla in Ef. clear - Ef Hf Hr Hl Hz.
    unfold QueueProofs.wrap in Ef. repeat (match type of Ef with context [if ?c then _ else _] => destruct c eqn:? end); lia. }
  pose proof E as E'. unfold q_add_last in E'. rewrite Ee in E'. cbn [bind] in E'. rewrite Ho in E'.
  destruct (zput (qelems q) (qlast q) x) as [e| |]; try discriminate. cbn [bind] in E'. injection E' as <-.
  cbn [qoom qcap qfirst] in *. auto.
Qed.

Lemma adds_room ys : forall q (l : list A), qwf q l -> qoom q = false -> zlen l + zlen ys < qcap q ->
  exists q', q_calls zero q (map (fun y => AddLast y true) ys) = Ok q' /\ qwf q' (l ++ ys) /\ qoom q' = false /\ qcap q' = qcap q /\ qfirst q' = qfirst q.
Proof.
  induction ys as [|y ys IH]; intros q l W Ho Hr; unfold q_calls in *; cbn [map foldM].
  - exists q. rewrite app_nil_r. auto.
  - rewrite zlen_cons in Hr. pose proof (zlen_nonneg ys). cbn [q_step].
    destruct (add_room q l y true W Ho) as (q1 & -> & W1 & O1 & C1 & F1); [lia|]. cbn [bind].
    destruct (IH q1 (l ++ [y]) W1 O1) as (q2 & -> & W2 & O2 & C2 & F2).
    { rewrite zlen_app, zlen_cons, zlen_nil. lia. }
    exists q2. rewrite <- app_assoc in W2. split; [reflexivity|]. split; [exact W2|]. split; [exact O2|]. split; congruence.
Qed.

Lemma work_loop (add : S -> A -> list A) (next : S -> A -> S * bool) (mu : S -> nat) :
  (forall s x, (mu (fst (next s x)) + length (add s x) <= mu s)%nat) ->
  forall n q (l : list A) s, qwf q l -> qoom q = false -> zlen l + Z.of_nat (mu s) < qcap q -> (length l + mu s < n)%nat ->
  exists q' s' t r brk, q_loop zero n (worker add next) (qfirst q) q s = Ok (q', s', t, brk) /\ fifo add next l s t r s' brk /\ qwf q' r /\ qoom q' = false.
Proof.
  intros Hm. induction n as [|n IH]; intros q l s W Ho Hr Hn; [lia|]. cbn [q_loop]. pose proof (QueueProofs.qcap_range _ _ W) as Hc.
  pose proof W as (_ & He & Hf & Hz & Hla & Hg). destruct l as [|x l].
  - rewrite zlen_nil in Hla. replace (qlast q) with (qfirst q).
    2:{ rewrite Hla. unfold QueueProofs.wrap. repeat (match goal with |- context [if ?c then _ else _] => destruct c eqn:? end); lia. }
    rewrite Z.eqb_refl. exists q, s, [], [], false. split; [reflexivity|]. split; [constructor|]. auto.
  - rewrite zlen_cons in *. pose proof (zlen_nonneg l). destruct (qfirst q =? qlast q) eqn:E.
    { exfalso. rewrite Hla in E. clear - E Hf Hz H. unfold QueueProofs.wrap in E.
      repeat (match type of E with context [if ?c then _ else _] => destruct c eqn:? end); lia. }
    destruct (QueueProofs.del_first_ok q l x W) as (q1 & E1 & W1 & O1).
    assert (Ex : zload (qelems q) (qfirst q) = Ok x /\ qcap q1 = qcap q /\ qfirst q1 = mask (qfirst q + 1) (qcap q)).
    { unfold q_del_first in E1. destruct (zload (qelems q) (qfirst q)) as [y| |]; try discriminate. cbn [bind] in E1. injection E1 as <- ->. auto. }
    destruct Ex as (-> & C1 & F1). cbn [bind]. cbn [worker sb_calls sb_next]. unfold q_calls. cbn [foldM q_step]. rewrite E1. cbn [bind].
    pose proof (Hm s x) as Hmx.
    destruct (adds_room (add s x) q1 l W1) as (q2 & E2 & W2 & O2 & C2 & F2); [congruence|unfold zlen in *; lia|].
    unfold q_calls in E2. rewrite E2. cbn [bind]. destruct (next s x) as [s1 [|]] eqn:En; cbn [fst] in Hmx.
    + exists q2, s1, [x], (l ++ add s x), true. split; [reflexivity|]. split; [now constructor|]. auto.
    + replace (q_next q2 (qfirst q)) with (qfirst q2) by (unfold q_next; congruence).
      destruct (IH q2 (l ++ add s x) s1 W2 O2) as (q' & s' & t & r & brk & -> & Hfi & W' & O').
      * rewrite zlen_app, C2, C1. unfold zlen in *. lia.
      * rewrite app_length. cbn [length] in Hn. lia.
      * cbn [bind]. exists q', s', (x :: t), r, brk. split; [reflexivity|]. split; [econstructor; eauto|]. auto.
Qed.

End Queue.

(** C130: a loop whose body takes off the first item and may append others, as long as the ring need not grow ([mu] bounds how
    many items are appended from a state on): first in, first out, until the queue is empty or a break. *)
Theorem queue_loop_work_partial : forall (A S : Type) (zero : A) (q : queue A) (l : list A)
    (add : S -> A -> list A) (next : S -> A -> S * bool) (mu : S -> nat) (s : S),
  q_reach zero q l -> q_oom q = false ->
  (forall s x, (mu (fst (next s x)) + length (add s x) <= mu s)%nat) -> zlen l + Z.of_nat (mu s) < qcap q ->
  exists n q' s' t r brk, q_loop zero n (worker add next) (qfirst q) q s = Ok (q', s', t, brk) /\
    fifo add next l s t r s' brk /\ q_shows q' r /\ q_oom q' = false.
Proof.
  intros A S zero q l add next mu s R Ho Hm Hr. pose proof (QueueProps.reach_wf zero q l R) as W.
  destruct (work_loop zero add next mu Hm (Datatypes.S (length l + mu s)) q l s W Ho Hr) as (q' & s' & t & r & brk & E & F & W' & O'); [lia|].
  exists (Datatypes.S (length l + mu s)), q', s', t, r, brk. split; [exact E|]. split; [exact F|]. split; [now apply QueueProofs.qwf_shows|exact O'].
Qed.
Print Assumptions queue_loop_work_partial.

(** In particular emptying a queue in a loop visits every item once, in order. *)
Theorem queue_loop_drain_partial : forall (A : Type) (zero : A) (q : queue A) (l : list A), q_reach zero q l -> q_oom q = false ->
  exists n q', q_loop zero n (mk_sbody (fun (_ : unit) _ => [DelFirst]) (fun _ _ => (tt, false))) (qfirst q) q tt = Ok (q', tt, l, false) /\ q_shows q' [].
Proof.
  intros A zero q l R Ho.
  destruct (queue_loop_work_partial A unit zero q l (fun _ _ => []) (fun _ _ => (tt, false)) (fun _ => O) tt R Ho) as (n & q' & [] & t & r & brk & E & F & W & O').
  - intros [] x. cbn. lia.
  - pose proof (QueueProps.reach_wf zero q l R) as (_ & _ & _ & H & _). lia.
  - exists n, q'. unfold worker in E. cbn [map] in E. rewrite E.
    assert (t = l /\ r = [] /\ brk = false) as (-> & -> & ->); [|auto].
    assert (forall l s t r s' brk, fifo (fun (_ : unit) (_ : A) => []) (fun _ _ => (tt, false)) l s t r s' brk -> t = l /\ r = [] /\ brk = false) as H; [|eapply H; eauto].
    clear F. intros l0 s0 t0 r0 s' b0 F. induction F as [|x l1 s1 s2 H|x l1 s1 s2 t1 r1 s3 b1 H F IH]; [auto|discriminate|].
    rewrite app_nil_r in IH. destruct IH as (-> & -> & ->). auto.
Qed.
Print Assumptions queue_loop_drain_partial.

Definition of_ops (ops : list (qop Z)) (b : sbody Z (qop Z) Z) : option (list Z * Z) :=
  match QueueProps.q_run 0 (q_init 0 true) ops with
  | Ok q => match q_loop 0 100 b (qfirst q) q 0 with Ok (q, _, t, _) => Some (t, q_size q) | _ => None end
  | _ => None end.

(** A ring that wraps; each of 1, 2 puts another number at the end. *)
Example queue_loop_ex :
  of_ops (map (fun n => AddLast (Z.of_nat n) true) (seq 1 6) ++ repeat DelFirst 5 ++ [AddLast 1 true; AddLast 2 true])
    (worker (fun n x => if x <? 3 then [x + 10] else []) (fun n x => (n, false))) = Some ([6; 1; 2; 11; 12], 0).
Proof. vm_compute. reflexivity. Qed.

(** C130, refuted: when the ring grows during the loop (here 7 items in a ring of 8 that starts at slot 3), the position stands
    for another item: 2, 3 and 4 are missed. *)
Theorem queue_loop_grow_refuted :
  of_ops (map (fun n => AddLast (Z.of_nat n) true) (seq 1 3) ++ repeat DelFirst 3 ++ map (fun n => AddLast (Z.of_nat n) true) (seq 1 7))
    (mk_sbody (fun _ x => if x =? 1 then [AddLast 8 true] else []) (fun n x => (n, false))) = Some ([1; 5; 6; 7; 8], 8).
Proof. vm_compute. reflexivity. Qed.
Print Assumptions queue_loop_grow_refuted.
(** Refuted: deleting the last item at the last position makes the loop go round the ring: free slots, then all items again. *)
Theorem queue_loop_shrink_refuted :
  of_ops (map (fun n => AddLast (Z.of_nat n) true) (seq 1 3)) (mk_sbody (fun _ x => if x =? 3 then [DelLast] else []) (fun n x => (n, false)))
    = Some ([1; 2; 3; 0; 0; 0; 0; 0; 1; 2], 2).
Proof. vm_compute. reflexivity. Qed.
Print Assumptions queue_loop_shrink_refuted.
