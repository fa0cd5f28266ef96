(** Proofs about the Windows poller. *)
From Verif Require Import Base SockModel PollModel WinModel WinSpec.
From Coq Require Import ZifyBool.

(** ** Addresses of cells *)

Definition csize (j : Z) : Z := if j =? 0 then 16 else 2 ^ (j + 3).
Definition cbase (j : Z) : Z := if j =? 0 then 0 else 2 ^ (j + 3).

Lemma clear_top i l : 0 < i -> l = Z.log2 i -> Z.land i (Z.lnot (Z.shiftl 1 l)) = i - 2 ^ l.
Proof.
  intros Hi ->. pose proof (Z.log2_nonneg i). rewrite Z.shiftl_1_l. change (Z.land i (Z.lnot (2 ^ Z.log2 i))) with (Z.land i (Z.lnot (2 ^ Z.log2 i))).
  rewrite <- Z.ldiff_land. symmetry. apply Z.sub_nocarry_ldiff. apply Z.bits_inj'. intros n Hn. rewrite Z.ldiff_spec, Z.bits_0, Z.pow2_bits_eqb by lia.
  destruct (Z.log2 i =? n) eqn:E; [|reflexivity]. apply Z.eqb_eq in E. subst n. rewrite Z.bit_log2 by lia. reflexivity.
Qed.
Lemma data_inner_ok i k : 0 <= k <= 15 -> 0 <= i < 16 * 2 ^ k ->
  exists x y, data_inner i = Ok (x, y) /\ 0 <= x <= k /\ 0 <= y < csize x /\ i = cbase x + y.
Proof.
  intros Hk Hi. unfold data_inner. destruct (i <? 16) eqn:E.
  - exists 0, i. unfold csize, cbase. cbn. split; [reflexivity|lia].
  - unfold nbits. destruct (i <=? 0) eqn:E0; [lia|]. cbn [bind]. exists (Z.log2 i - 3), (i - 2 ^ (Z.log2 i)).
    pose proof (Z.log2_spec i ltac:(lia)) as [L1 L2]. assert (4 <= Z.log2 i) by (apply Z.log2_le_pow2; lia).
    assert (Z.log2 i < 4 + k). { apply Z.log2_lt_pow2; [lia|]. rewrite Z.pow_add_r by lia. change (2 ^ 4) with 16. lia. }
    replace (32 - (31 - Z.log2 i) - 4) with (Z.log2 i - 3) by lia. replace (32 - (31 - Z.log2 i) - 1) with (Z.log2 i) by lia.
    rewrite clear_top by lia. split; [reflexivity|]. unfold csize, cbase. destruct (Z.log2 i - 3 =? 0) eqn:E1; [lia|].
    replace (Z.log2 i - 3 + 3) with (Z.log2 i) by lia. rewrite Z.pow_succ_r in L2 by lia. lia.
Qed.
Definition loc (i : Z) : ptr := match data_inner i with Ok q => q | _ => (0, 0) end.
Lemma loc_spec i k : 0 <= k <= 15 -> 0 <= i < 16 * 2 ^ k ->
  data_inner i = Ok (loc i) /\ 0 <= fst (loc i) <= k /\ 0 <= snd (loc i) < csize (fst (loc i)) /\ i = cbase (fst (loc i)) + snd (loc i).
Proof. intros Hk Hi. destruct (data_inner_ok i k Hk Hi) as (x & y & E & H). unfold loc. rewrite E. cbn. tauto. Qed.

(** ** The memory *)

Definition shape (p : wpoll) : Prop := exists k ev, 0 <= k <= 15 /\ w_cap p = 16 * 2 ^ k /\ zlen (w_data p) = k + 1 /\
  (forall j ch, zget (w_data p) j = Some ch -> zlen ch = csize j) /\ w_events p = Live ev /\ zlen ev = w_cap p.
Definition inr (p : wpoll) (i : Z) : Prop := 0 <= i < w_cap p.
Definition slot (p : wpoll) (i : Z) : option pfd := match w_events p with Live ev => zget ev i | _ => None end.
Definition cel (p : wpoll) (i : Z) : option cell := match zget (w_data p) (fst (loc i)) with Some ch => zget ch (snd (loc i)) | None => None end.

Lemma loc_inner p i : shape p -> inr p i -> data_inner i = Ok (loc i).
Proof. intros (k & ev & K & C & _) Hi. unfold inr in Hi. rewrite C in Hi. apply (loc_spec i k K Hi). Qed.
Lemma loc_inj p i j : shape p -> inr p i -> inr p j -> loc i = loc j -> i = j.
Proof.
  intros (k & ev & K & C & _) Hi Hj E. unfold inr in *. rewrite C in *. destruct (loc_spec i k K Hi) as (_ & _ & _ & Ei).
  destruct (loc_spec j k K Hj) as (_ & _ & _ & Ej). rewrite Ei, Ej, E. reflexivity.
Qed.
Lemma slot_in p i : shape p -> inr p i -> exists e, slot p i = Some e.
Proof. intros (k & ev & K & C & _ & _ & E & L) Hi. unfold slot. rewrite E. apply zget_in_range. unfold inr in Hi. lia. Qed.
Lemma slot_range p i e : shape p -> slot p i = Some e -> inr p i.
Proof. intros (k & ev & K & C & _ & _ & E & L) Hi. unfold slot in Hi. rewrite E in Hi. apply zget_Some_range in Hi. unfold inr. lia. Qed.
Lemma cel_in p i : shape p -> inr p i -> exists c, cel p i = Some c.
Proof.
  intros (k & ev & K & C & D & S & E & L) Hi. unfold inr in Hi. rewrite C in Hi. destruct (loc_spec i k K Hi) as (_ & X & Y & _). unfold cel.
  destruct (zget_in_range (w_data p) (fst (loc i)) ltac:(lia)) as [ch Hc]. rewrite Hc. apply zget_in_range. rewrite (S _ _ Hc). lia.
Qed.
Lemma cell_get_ok p i c : cel p i = Some c -> cell_get p (loc i) = Ok c.
Proof.
  unfold cel, cell_get. destruct (zget (w_data p) (fst (loc i))) as [ch|] eqn:E; [|discriminate]. intros H. rewrite (zload_ok _ _ _ E). cbn [bind].
  now apply zload_ok.
Qed.
Lemma cell_put_ok p i c : shape p -> inr p i -> exists d, cell_put p (loc i) c = Ok (set_data p d) /\ shape (set_data p d) /\
  cel (set_data p d) i = Some c /\ (forall j, inr p j -> j <> i -> cel (set_data p d) j = cel p j).
Proof.
  intros (k & ev & K & C & D & S & E & L) Hi. assert (Hi' := Hi). unfold inr in Hi. rewrite C in Hi. destruct (loc_spec i k K Hi) as (_ & X & Y & _).
  destruct (zget_in_range (w_data p) (fst (loc i)) ltac:(lia)) as [ch Hc]. pose proof (S _ _ Hc) as Lc. unfold cell_put. rewrite (zload_ok _ _ _ Hc). cbn [bind].
  rewrite zput_ok by lia. cbn [bind]. rewrite zput_ok by lia. cbn [bind].
  assert (Sh : shape (set_data p (zset (w_data p) (fst (loc i)) (zset ch (snd (loc i)) c)))).
  { exists k, ev. cbn. rewrite zlen_zset. split; [exact K|]. split; [exact C|]. split; [exact D|]. split; [|tauto]. intros j ch'. rewrite zget_zset by lia.
    destruct (fst (loc i) =? j) eqn:Ej; [|apply S]. intros H. injection H as <-. rewrite zlen_zset. replace j with (fst (loc i)) by lia. exact Lc. }
  eexists. split; [reflexivity|]. split; [exact Sh|]. split.
  - unfold cel. cbn. rewrite zget_zset_eq by lia. apply zget_zset_eq. lia.
  - intros j Hj Hne. unfold cel. cbn. rewrite zget_zset by lia. destruct (fst (loc i) =? fst (loc j)) eqn:Ef; [|reflexivity].
    replace (fst (loc j)) with (fst (loc i)) by lia. rewrite Hc. apply zget_zset_neq. intros Es. apply Hne.
    assert (loc i = loc j). { destruct (loc i), (loc j); cbn in *. f_equal; lia. }
    symmetry. apply (loc_inj p); auto. exists k, ev. tauto.
Qed.
Lemma ev_block_ok p : shape p -> exists ev, ev_block p = Ok ev /\ w_events p = Live ev /\ zlen ev = w_cap p /\ (forall i, slot p i = zget ev i).
Proof. intros (k & ev & K & C & D & S & E & L). exists ev. unfold ev_block, slot. rewrite E. auto. Qed.
Lemma ev_put_ok p ev i e : shape p -> w_events p = Live ev -> inr p i -> zput ev i e = Ok (zset ev i e) /\ shape (set_events p (Live (zset ev i e))) /\
  slot (set_events p (Live (zset ev i e))) i = Some e /\ (forall j, j <> i -> slot (set_events p (Live (zset ev i e))) j = slot p j) /\
  (forall j, cel (set_events p (Live (zset ev i e))) j = cel p j).
Proof.
  intros (k & ev' & K & C & D & S & E & L) E' Hi. rewrite E in E'. injection E' as ->. unfold inr in Hi. split; [apply zput_ok; lia|]. split.
  - exists k, (zset ev i e). cbn. rewrite zlen_zset. tauto.
  - unfold slot. cbn. rewrite E. split; [apply zget_zset_eq; lia|]. split; [|reflexivity]. intros j Hj. apply zget_zset_neq. auto.
Qed.

(** Slots in use. *)
Definition inuse (e : pfd) : Z := if pf_fd e =? INVALID then 0 else 1.
Fixpoint cntu (ev : list pfd) : Z := match ev with [] => 0 | e :: ev => inuse e + cntu ev end.
Lemma cntu_app a b : cntu (a ++ b) = cntu a + cntu b.
Proof. induction a; cbn; lia. Qed.
Lemma cntu_range ev : 0 <= cntu ev <= zlen ev.
Proof. induction ev; [rewrite zlen_nil; cbn; lia|]. rewrite zlen_cons. cbn. unfold inuse. destruct (_ =? _); lia. Qed.
Lemma cntu_free n x y : cntu (repeat (mk_pfd INVALID x y) n) = 0.
Proof. induction n; cbn; auto. Qed.
Lemma cntu_set ev i e e' : zget ev i = Some e -> cntu (zset ev i e') = cntu ev - inuse e + inuse e'.
Proof.
  revert i. induction ev as [|x ev IH]; intros i H; [unfold zget in H; destruct (i <? 0); [discriminate|]; destruct (Z.to_nat i); discriminate|].
  pose proof (zget_Some_range _ _ _ H) as R. rewrite zget_cons in H. unfold zset. destruct (i <? 0) eqn:E; [lia|]. destruct (i =? 0) eqn:E0.
  - injection H as <-. replace i with 0 by lia. cbn. lia.
  - destruct (Z.to_nat i) eqn:En; [lia|]. cbn. specialize (IH (i - 1)). unfold zset in IH. destruct (i - 1 <? 0) eqn:E1; [lia|].
    replace (Z.to_nat (i - 1)) with n in IH by lia. rewrite IH by exact H. lia.
Qed.
Lemma free_slot_found ev i0 : cntu ev < zlen ev -> exists i e, free_slot ev i0 = Some (i0 + i) /\ zget ev i = Some e /\ pf_fd e = INVALID.
Proof.
  revert i0. induction ev as [|x ev IH]; intros i0 H; [rewrite zlen_nil in H; cbn in H; lia|]. rewrite zlen_cons in H. cbn in H. cbn [free_slot]. unfold inuse in H.
  destruct (pf_fd x =? INVALID) eqn:E.
  - exists 0, x. rewrite Z.add_0_r. split; [reflexivity|]. split; [reflexivity|lia].
  - destruct (IH (i0 + 1) ltac:(lia)) as (i & e & F & G & I). exists (i + 1), e. rewrite F. split; [f_equal; lia|]. split; [|exact I].
    pose proof (zget_Some_range _ _ _ G). rewrite zget_consS by lia. replace (i + 1 - 1) with i by lia. exact G.
Qed.

(** ** The invariant *)

Definition wd (dat : Z -> Z) (a : Z) : Z := if a =? WAKE then 0 else dat a.
Definition holds_slot (p : wpoll) (t : wfd) (d : Z) : Prop := exists i, inr p i /\ f_pd t = Some (loc i) /\
  (exists e, slot p i = Some e /\ pf_fd e = f_fd t /\ pf_ev e = win_events (f_op t)) /\
  (exists c, cel p i = Some c /\ c_index c = i /\ c_data c = d /\ Z.testbit (c_edge c) 2 = Z.testbit (f_op t) 2).
Definition mok (m : Z) : Prop := 0 <= m < 8 /\ m <> 4.
Definition has (t : wfd) : bool := match f_pd t with Some _ => true | None => false end.
Fixpoint cntb {A} (f : A -> bool) (l : list A) : Z := match l with [] => 0 | x :: l => (if f x then 1 else 0) + cntb f l end.

(** Whose slot each deletion that was put off gives up: the structures [own], in the order of the deletions in [L].  None of them has asked for a
    slot again by an operation that comes before its deletion. *)
Fixpoint owned (L : list wop) (own : list Z) : Prop :=
  match L with
  | [] => own = []
  | o :: L => if o_full o then match own with [] => False | _ :: own => owned L own end
              else owned L own /\ forall a, o_fdt o = Some a -> ~ In a own
  end.
Definition own_ok (ids : list Z) (f : Z -> wfd) (L : list wop) (own : list Z) : Prop :=
  NoDup own /\ (forall b, In b own -> In b ids /\ has (f b) = false) /\ owned L own.
Definition unowned (ids : list Z) (f : Z -> wfd) (L : list wop) (a : Z) : Prop := exists own, own_ok ids f L own /\ ~ In a own.

Record inv (ids : list Z) (dat fd0 M : Z -> Z) (L : list wop) (base : Z) (s : wst) : Prop := mk_inv {
  v_ids : NoDup ids /\ ~ In WAKE ids /\ zlen ids < 2 ^ 19 /\ 0 <= base;
  v_shape : shape (wp s);
  v_count : forall ev, w_events (wp s) = Live ev -> w_count (wp s) = cntu ev;
  v_fd : forall a, In a (WAKE :: ids) -> f_fd (wf s a) = fd0 a /\ fd0 a <> INVALID;
  v_id : forall a, In a (WAKE :: ids) -> mok (f_op (wf s a)) /\
           (f_op (wf s a) = 0 /\ f_pd (wf s a) = None \/ f_op (wf s a) <> 0 /\ holds_slot (wp s) (wf s a) (wd dat a));
  v_sep : forall a b q, In a (WAKE :: ids) -> In b (WAKE :: ids) -> a <> b -> f_pd (wf s a) = Some q -> f_pd (wf s b) = Some q -> False;
  v_full : forall j o, zget L j = Some o -> o_full o = true -> exists i, inr (wp s) i /\ o_pd o = Some (loc i) /\
             (exists e, slot (wp s) i = Some e /\ pf_fd e <> INVALID) /\ (exists c, cel (wp s) i = Some c /\ c_index c = i) /\
             forall a, In a (WAKE :: ids) -> f_pd (wf s a) <> Some (loc i);
  v_fsep : forall j j' o o', zget L j = Some o -> zget L j' = Some o' -> j <> j' -> o_full o = true -> o_full o' = true -> o_pd o <> o_pd o';
  v_op : forall j o, zget L j = Some o -> o_full o = false -> exists a, In a ids /\ o_fdt o = Some a /\ f_opi (wf s a) = base + j /\
           o_data o = dat a /\ 0 <= o_add o < 8 /\ 0 <= o_del o < 8;
  v_opi : forall a, In a ids -> f_opi (wf s a) = -1 \/ exists o, zget L (f_opi (wf s a) - base) = Some o /\ o_full o = false /\ o_fdt o = Some a;
  v_own : forall i e, slot (wp s) i = Some e -> pf_fd e <> INVALID ->
            (exists a, In a (WAKE :: ids) /\ f_pd (wf s a) = Some (loc i)) \/ (exists j o, zget L j = Some o /\ o_full o = true /\ o_pd o = Some (loc i));
  v_mask : forall a, In a ids -> (f_opi (wf s a) = -1 -> M a = f_op (wf s a)) /\
             (forall o, zget L (f_opi (wf s a) - base) = Some o -> M a = Z.ldiff (Z.lor (f_op (wf s a)) (o_add o)) (o_del o) /\ Z.land (M a) 3 <> 0);
  v_wake : f_op (wf s WAKE) = 1 /\ f_pd (wf s WAKE) = Some (loc 0);
  v_num : w_count (wp s) <= cntb (fun a => has (wf s a)) ids + 1 + cntb o_full L /\ exists own, own_ok ids (wf s) L own
}.

Lemma cntb_range {A} (f : A -> bool) l : 0 <= cntb f l <= zlen l.
Proof. induction l; [rewrite zlen_nil; cbn; lia|]. rewrite zlen_cons. cbn. destruct (f a); lia. Qed.
Lemma cntb_ext {A} (f g : A -> bool) l : (forall x, In x l -> f x = g x) -> cntb f l = cntb g l.
Proof. induction l; [reflexivity|]. intros H. cbn. rewrite (H a) by (now left). rewrite IHl; [reflexivity|]. intros; apply H; now right. Qed.
Lemma cntb_upf s a t ids : NoDup ids -> In a ids ->
  cntb (fun b => has (upf (wf s) a t b)) ids = cntb (fun b => has (wf s b)) ids - (if has (wf s a) then 1 else 0) + (if has t then 1 else 0).
Proof.
  induction ids as [|x ids IH]; intros N I; [destruct I|]. inversion N as [|? ? Nx N']; subst. cbn [cntb]. destruct (x =? a) eqn:E.
  - apply Z.eqb_eq in E. subst x. rewrite (cntb_ext (fun b => has (upf (wf s) a t b)) (fun b => has (wf s b))).
    + unfold upf at 1. rewrite Z.eqb_refl. lia.
    + intros y Hy. unfold upf. destruct (y =? a) eqn:E; [|reflexivity]. apply Z.eqb_eq in E. subst y. contradiction.
  - destruct I as [->|I]; [rewrite Z.eqb_refl in E; discriminate|]. rewrite IH by assumption. unfold upf at 1. rewrite E. lia.
Qed.

Lemma owned_len L : forall own, owned L own -> zlen own = cntb o_full L.
Proof.
  induction L as [|o L IH]; intros own H; cbn [owned cntb] in *; [now subst|]. destruct (o_full o).
  - destruct own as [|b own]; [destruct H|]. rewrite zlen_cons, (IH _ H). lia.
  - rewrite (IH _ (proj1 H)). lia.
Qed.
Lemma own_keep ids f f' L own : (forall b, In b own -> has (f b) = false -> has (f' b) = false) -> own_ok ids f L own -> own_ok ids f' L own.
Proof. intros E (H1 & H2 & H3). split; [exact H1|]. split; [|exact H3]. intros b Hb. destruct (H2 b Hb) as [X Y]. auto. Qed.
Lemma unowned_has ids f L a : (exists own, own_ok ids f L own) -> has (f a) = true -> unowned ids f L a.
Proof. intros (own & H) Ha. exists own. split; [exact H|]. intros I. destruct H as (_ & H & _). destruct (H a I). congruence. Qed.
Lemma unowned_nil ids f a : unowned ids f [] a.
Proof. exists []. split; [|intros []]. split; [constructor|]. split; [intros b []|reflexivity]. Qed.
Lemma own_set ids f L a t : unowned ids f L a -> exists own, own_ok ids (upf f a t) L own.
Proof.
  intros (own & H & N). exists own. revert H. apply own_keep. intros b Hb. unfold upf. destruct (b =? a) eqn:E; [|auto]. apply Z.eqb_eq in E. subst b. contradiction.
Qed.
Lemma own_none ids f L a t : has t = false -> (exists own, own_ok ids f L own) -> exists own, own_ok ids (upf f a t) L own.
Proof. intros Ht (own & H). exists own. revert H. apply own_keep. intros b Hb. unfold upf. destruct (b =? a); auto. Qed.
Lemma own_drop ids f o L : o_full o = true -> (exists own, own_ok ids f (o :: L) own) -> exists own, own_ok ids f L own.
Proof.
  intros Fo (own & H1 & H2 & H3). cbn [owned] in H3. rewrite Fo in H3. destruct own as [|b own]; [destruct H3|]. exists own. inversion H1; subst. split; [assumption|]. split; [|exact H3]. intros x Hx. apply H2. now right.
Qed.
Lemma own_pop ids f o L a : o_full o = false -> o_fdt o = Some a -> (exists own, own_ok ids f (o :: L) own) -> unowned ids f L a.
Proof. intros Fo Fd (own & H1 & H2 & H3). cbn [owned] in H3. rewrite Fo in H3. destruct H3 as [H3 H4]. exists own. split; [split; auto|auto]. Qed.
Lemma owned_snoc o L : o_full o = false -> forall own, owned L own -> owned (L ++ [o]) own.
Proof.
  intros Fo. induction L as [|x L IH]; intros own H; cbn [owned app] in *.
  - subst own. rewrite Fo. split; [reflexivity|intros a _ []].
  - destruct (o_full x); [destruct own as [|b own]; [destruct H|auto]|]. destruct H. auto.
Qed.
Lemma zset_cons0 {A} (x y : A) l : zset (x :: l) 0 y = y :: l.
Proof. reflexivity. Qed.
Lemma zset_consS {A} (x y : A) l j : 0 < j -> zset (x :: l) j y = x :: zset l (j - 1) y.
Proof.
  intros H. unfold zset. destruct (j <? 0) eqn:E; [lia|]. destruct (j - 1 <? 0) eqn:E1; [lia|]. replace (Z.to_nat j) with (S (Z.to_nat (j - 1))) by lia. reflexivity.
Qed.
Lemma owned_zset o y L : o_full o = false -> o_full y = false -> o_fdt o = o_fdt y -> forall own j, zget L j = Some y -> owned L own -> owned (zset L j o) own.
Proof.
  intros Fo Fy Ed. induction L as [|x L IH]; intros own j Hj H; [apply zget_Some_range in Hj; rewrite zlen_nil in Hj; lia|].
  pose proof (zget_Some_range _ _ _ Hj) as R. rewrite zget_cons in Hj. destruct (j =? 0) eqn:E0.
  - replace j with 0 by lia. rewrite zset_cons0. injection Hj as ->. cbn [owned] in *. rewrite Fo. rewrite Fy in H. rewrite Ed. exact H.
  - rewrite zset_consS by lia. cbn [owned] in *. destruct (o_full x); [destruct own as [|b own]; [destruct H|eauto]|]. destruct H. eauto.
Qed.
(** The deletion of [a] enters at place [j]. *)
Fixpoint own_ins (L : list wop) (j : nat) (own : list Z) (a : Z) : list Z :=
  match j with
  | O => a :: own
  | S j => match L with
           | [] => a :: own
           | o :: L => if o_full o then match own with [] => [a] | b :: own => b :: own_ins L j own a end else own_ins L j own a
           end
  end.
Lemma own_ins_in L : forall j own a b, In b (own_ins L j own a) -> b = a \/ In b own.
Proof.
  induction L as [|o L IH]; intros [|j] own a b; cbn; try (intros [->|H]; auto).
  destruct (o_full o); [|apply IH]. destruct own as [|c own]; cbn; [intros [->|[]]; auto|]. intros [->|H]; [auto|]. destruct (IH _ _ _ _ H); auto.
Qed.
Lemma own_ins_nodup L : forall j own a, NoDup own -> ~ In a own -> NoDup (own_ins L j own a).
Proof.
  induction L as [|o L IH]; intros [|j] own a N I; cbn; try (constructor; assumption).
  destruct (o_full o); [|auto]. destruct own as [|c own]; [constructor; [intros []|constructor]|]. inversion N as [|? ? N1 N2]; subst. constructor.
  - intros H. apply own_ins_in in H. destruct H as [->|H]; [apply I; now left|contradiction].
  - apply IH; [exact N2|]. intros H. apply I. now right.
Qed.
Lemma owned_put_full L L' o a : o_full o = true -> forall j own, 
  (j = zlen L /\ L' = L ++ [o] \/ (exists y, zget L j = Some y /\ o_full y = false) /\ L' = zset L j o) ->
  (forall k x, k <> j -> zget L k = Some x -> o_full x = false -> o_fdt x <> Some a) -> owned L own -> owned L' (own_ins L (Z.to_nat j) own a).
Proof.
  intros Fo. revert L'. induction L as [|x L IH]; intros L' j own Hj N H.
  - destruct Hj as [[-> ->]|[(y & Hy & _) _]]; [|apply zget_Some_range in Hy; rewrite zlen_nil in Hy; lia]. cbn [owned] in H. subst own. cbn. rewrite Fo. reflexivity.
  - assert (J0 : j = 0 \/ 0 < j). { destruct Hj as [[-> _]|[(y & Hy & _) _]]; [rewrite zlen_cons; pose proof (zlen_nonneg L); lia|apply zget_Some_range in Hy; lia]. }
    destruct J0 as [->|J0].
    + destruct Hj as [[E _]|[(y & Hy & Fy) ->]]; [rewrite zlen_cons in E; pose proof (zlen_nonneg L); lia|]. rewrite zget_cons0 in Hy. injection Hy as ->. rewrite zset_cons0. cbn [owned Z.to_nat own_ins] in *. rewrite Fo. rewrite Fy in H. apply H.
    + assert (Hj' : exists L1, L' = x :: L1 /\ (j - 1 = zlen L /\ L1 = L ++ [o] \/ (exists y, zget L (j - 1) = Some y /\ o_full y = false) /\ L1 = zset L (j - 1) o)).
      { destruct Hj as [[-> ->]|[(y & Hy & Fy) ->]].
        - exists (L ++ [o]). split; [reflexivity|]. left. rewrite zlen_cons. split; [lia|reflexivity].
        - exists (zset L (j - 1) o). split; [apply zset_consS; exact J0|]. right. split; [|reflexivity]. exists y. rewrite zget_consS in Hy by lia. auto. }
      destruct Hj' as (L1 & -> & Hj'). replace (Z.to_nat j) with (S (Z.to_nat (j - 1))) by lia.
      assert (N' : forall k y, k <> j - 1 -> zget L k = Some y -> o_full y = false -> o_fdt y <> Some a).
      { intros k y Hk Hy. pose proof (zget_Some_range _ _ _ Hy). apply (N (k + 1)); [lia|]. rewrite zget_consS by lia. replace (k + 1 - 1) with k by lia. exact Hy. }
      cbn [owned own_ins] in *. destruct (o_full x) eqn:Fx.
      * destruct own as [|b own]; [destruct H|]. apply (IH _ _ _ Hj' N' H).
      * destruct H as [H1 H2]. split; [apply (IH _ _ _ Hj' N' H1)|]. intros c Hc I. apply own_ins_in in I. destruct I as [->|I]; [|exact (H2 c Hc I)]. apply (N 0 x); [lia|apply zget_cons0|exact Fx|exact Hc].
Qed.
Lemma own_bound ids f L a : NoDup ids -> In a ids -> has (f a) = false -> unowned ids f L a -> cntb (fun b => has (f b)) ids + cntb o_full L + 1 <= zlen ids.
Proof.
  intros Nd Ia Ha (own & (N & H1 & H2) & Na). rewrite <- (owned_len _ _ H2).
  assert (Fl : forall l, zlen (filter (fun b => negb (has (f b))) l) + cntb (fun b => has (f b)) l = zlen l).
  { induction l as [|x l IH]; [reflexivity|]. cbn [filter cntb]. rewrite zlen_cons. destruct (has (f x)); cbn [negb]; [|rewrite zlen_cons]; lia. }
  specialize (Fl ids). assert (X : (length (a :: own) <= length (filter (fun b => negb (has (f b))) ids))%nat).
  { apply NoDup_incl_length; [constructor; assumption|]. intros b [<-|Hb]; apply filter_In; [rewrite Ha; auto|]. destruct (H1 b Hb) as [Y1 Y2]. rewrite Y2. auto. }
  unfold zlen in *. cbn [length] in X. lia.
Qed.

Definition look_slot (e : pfd) : Z * Z := (pf_fd e, pf_ev e).
Definition look_cell (c : cell) : Z * Z * bool := (c_index c, c_data c, Z.testbit (c_edge c) 2).
(** Nothing about registration is changed. *)
Definition same (p p' : wpoll) : Prop := shape p' /\ w_count p' = w_count p /\ w_cap p' = w_cap p /\
  (forall ev ev', w_events p = Live ev -> w_events p' = Live ev' -> cntu ev' = cntu ev) /\
  (forall i, option_map look_slot (slot p' i) = option_map look_slot (slot p i)) /\
  (forall i, inr p i -> option_map look_cell (cel p' i) = option_map look_cell (cel p i)).
Lemma same_slot p p' i e : same p p' -> slot p i = Some e -> exists e', slot p' i = Some e' /\ pf_fd e' = pf_fd e /\ pf_ev e' = pf_ev e.
Proof. intros (_ & _ & _ & _ & S & _) H. specialize (S i). rewrite H in S. destruct (slot p' i) as [e'|]; [|discriminate]. cbn in S. injection S as S1 S2. eauto. Qed.
Lemma same_slot' p p' i e : same p p' -> slot p' i = Some e -> exists e', slot p i = Some e' /\ pf_fd e' = pf_fd e /\ pf_ev e' = pf_ev e.
Proof. intros (_ & _ & _ & _ & S & _) H. specialize (S i). rewrite H in S. destruct (slot p i) as [e'|]; [|discriminate]. cbn in S. injection S as S1 S2. eauto. Qed.
Lemma same_cel p p' i c : same p p' -> inr p i -> cel p i = Some c -> exists c', cel p' i = Some c' /\ c_index c' = c_index c /\ c_data c' = c_data c /\ Z.testbit (c_edge c') 2 = Z.testbit (c_edge c) 2.
Proof. intros (_ & _ & _ & _ & _ & S) R H. specialize (S i R). rewrite H in S. destruct (cel p' i) as [c'|]; [|discriminate]. cbn in S. injection S as S1 S2 S3. eauto 6. Qed.
Lemma inv_same ids dat fd0 M L base s p' : inv ids dat fd0 M L base s -> same (wp s) p' -> inv ids dat fd0 M L base (mk_wst p' (wf s)).
Proof.
  intros V S. assert (S' := S). destruct S' as (Sh & Sc & Scap & Scnt & _). assert (R : forall i, inr p' i <-> inr (wp s) i) by (intros i; unfold inr; rewrite Scap; tauto).
  destruct V. constructor; cbn; auto.
  - intros ev' E'. rewrite Sc. destruct v_shape0 as (k & ev & _ & _ & _ & _ & Ev & _). rewrite (Scnt _ _ Ev E'). auto.
  - intros a Ha. destruct (v_id0 a Ha) as (Mo & [H|(H & i & I1 & I2 & (e & E1 & E2 & E3) & (c & C1 & C2 & C3 & C4))]); split; auto. right. split; [exact H|].
    exists i. split; [now apply R|]. split; [exact I2|]. destruct (same_slot _ _ _ _ S E1) as (e' & X1 & X2 & X3). destruct (same_cel _ _ _ _ S I1 C1) as (c' & Y1 & Y2 & Y3 & Y4).
    split; [exists e'; rewrite X2, X3; auto|exists c'; rewrite Y2, Y3, Y4; auto].
  - intros j o Hj Ho. destruct (v_full0 j o Hj Ho) as (i & I1 & I2 & (e & E1 & E2) & (c & C1 & C2) & A). exists i. split; [now apply R|]. split; [exact I2|].
    destruct (same_slot _ _ _ _ S E1) as (e' & X1 & X2 & X3). destruct (same_cel _ _ _ _ S I1 C1) as (c' & Y1 & Y2 & _).
    split; [exists e'; rewrite X2; auto|]. split; [exists c'; rewrite Y2; auto|exact A].
  - intros i e E1 E2. destruct (same_slot' _ _ _ _ S E1) as (e' & X1 & X2 & X3). apply (v_own0 i e' X1). congruence.
  - rewrite Sc. exact v_num0.
Qed.

(** A structure's slot is set (it had it before, or the slot was free). *)
Lemma inv_set ids dat fd0 M M' L base s p' a i mask opi :
  inv ids dat fd0 M L base s -> In a ids -> unowned ids (wf s) L a -> f_opi (wf s a) = -1 -> opi = -1 -> mok mask -> mask <> 0 ->
  M' a = mask -> (forall b, In b ids -> b <> a -> M' b = M b) ->
  shape p' -> w_cap (wp s) <= w_cap p' -> inr p' i ->
  (f_pd (wf s a) = Some (loc i) /\ w_count p' = w_count (wp s) /\ inr (wp s) i \/
   f_pd (wf s a) = None /\ w_count p' = w_count (wp s) + 1 /\ (forall e, slot (wp s) i = Some e -> pf_fd e = INVALID)) ->
  (forall ev, w_events p' = Live ev -> w_count p' = cntu ev) ->
  (forall j, j <> i -> inr (wp s) j -> slot p' j = slot (wp s) j /\ cel p' j = cel (wp s) j) ->
  (forall j e, j <> i -> w_cap (wp s) <= j -> slot p' j = Some e -> pf_fd e = INVALID) ->
  (exists e, slot p' i = Some e /\ pf_fd e = f_fd (wf s a) /\ pf_ev e = win_events mask) ->
  (exists c, cel p' i = Some c /\ c_index c = i /\ c_data c = dat a /\ Z.testbit (c_edge c) 2 = Z.testbit mask 2) ->
  inv ids dat fd0 M' L base (mk_wst p' (upf (wf s) a (mk_wfd (f_fd (wf s a)) mask (Some (loc i)) opi))).
Proof.
  intros V Ha Fsh Hopi -> Mo Mn MA MB Sh Cap Ri Old Cnt Keep New Se Ce. destruct V.
  assert (B0 : 0 <= base) by tauto. assert (Nw : a <> WAKE) by (intros ->; tauto). assert (Ia : In a (WAKE :: ids)) by (now right).
  assert (Mono : forall j, inr (wp s) j -> inr p' j) by (unfold inr; intros; lia).
  (* other owners use other slots *)
  assert (Oth : forall b j e, In b (WAKE :: ids) -> b <> a -> inr (wp s) j -> slot (wp s) j = Some e -> pf_fd e <> INVALID -> f_pd (wf s b) = Some (loc j) -> j <> i).
  { intros b j e Hb Hne Hj Se' Ne P ->. destruct Old as [(O1 & _ & _)|(_ & _ & O3)]; [eapply v_sep0; eauto|]. apply Ne. auto. }
  assert (Up : forall b, b <> a -> upf (wf s) a (mk_wfd (f_fd (wf s a)) mask (Some (loc i)) (-1)) b = wf s b).
  { intros b Hb. unfold upf. destruct (b =? a) eqn:E; [lia|reflexivity]. }
  assert (UpA : upf (wf s) a (mk_wfd (f_fd (wf s a)) mask (Some (loc i)) (-1)) a = mk_wfd (f_fd (wf s a)) mask (Some (loc i)) (-1)).
  { unfold upf. rewrite Z.eqb_refl. reflexivity. }
  constructor; cbn [wp wf]; auto.
  - intros b Hb. destruct (Z.eq_dec b a) as [->|Hne]; [rewrite UpA; cbn; auto|rewrite Up by exact Hne; auto].
  - intros b Hb. destruct (Z.eq_dec b a) as [->|Hne].
    + rewrite UpA. cbn. split; [exact Mo|]. right. split; [exact Mn|]. exists i. cbn. split; [exact Ri|]. split; [reflexivity|]. split; [exact Se|].
      unfold wd. destruct (a =? WAKE) eqn:E; [lia|exact Ce].
    + rewrite Up by exact Hne. destruct (v_id0 b Hb) as (Mb & [H|(H & j & I1 & I2 & (e & E1 & E2 & E3) & C)]); split; auto. right. split; [exact H|].
      assert (j <> i). { eapply Oth; eauto. rewrite E2. destruct (v_fd0 b Hb) as [-> X]; exact X. }
      destruct (Keep j ltac:(assumption) I1) as [K1 K2]. exists j. split; [now apply Mono|]. split; [exact I2|]. rewrite K1, K2. eauto.
  - intros b c q Hb Hc Hne. destruct (Z.eq_dec b a) as [->|Hb'].
    + rewrite UpA, Up by congruence. cbn. intros H Hq. injection H as <-. destruct (v_id0 c Hc) as (_ & [[_ H]|(_ & j & I1 & I2 & (e & E1 & E2 & _) & _)]); [congruence|].
      rewrite I2 in Hq. injection Hq as Hq. destruct Old as [(O1 & _ & O2)|(_ & _ & O3)].
      * apply (loc_inj (wp s)) in Hq; auto. subst j. eapply (v_sep0 a c (loc i)); eauto.
      * assert (j = i). { apply (loc_inj p'); auto. } subst j. apply (proj2 (v_fd0 c Hc)). rewrite <- (proj1 (v_fd0 c Hc)), <- E2. auto.
    + rewrite (Up b) by exact Hb'. destruct (Z.eq_dec c a) as [->|Hc'].
      * rewrite UpA. cbn. intros Hq H. injection H as <-. destruct (v_id0 b Hb) as (_ & [[_ H]|(_ & j & I1 & I2 & (e & E1 & E2 & _) & _)]); [congruence|].
        rewrite I2 in Hq. injection Hq as Hq. destruct Old as [(O1 & _ & O2)|(_ & _ & O3)].
        -- apply (loc_inj (wp s)) in Hq; auto. subst j. eapply (v_sep0 b a (loc i)); eauto.
        -- assert (j = i). { apply (loc_inj p'); auto. } subst j. apply (proj2 (v_fd0 b Hb)). rewrite <- (proj1 (v_fd0 b Hb)), <- E2. auto.
      * rewrite (Up c) by exact Hc'. eauto.
  - intros j o Hj Ho. destruct (v_full0 j o Hj Ho) as (n & I1 & I2 & (e & E1 & E2) & C & A). exists n.
    assert (n <> i). { intros ->. destruct Old as [(O1 & _ & _)|(_ & _ & O3)]; [eapply A; eauto|]. auto. }
    destruct (Keep n ltac:(assumption) I1) as [K1 K2]. split; [now apply Mono|]. split; [exact I2|]. rewrite K1, K2. split; [eauto|]. split; [exact C|].
    intros b Hb. destruct (Z.eq_dec b a) as [->|Hne]; [|rewrite Up by exact Hne; auto]. rewrite UpA. cbn. intros Hq. injection Hq as Hq. apply (loc_inj p') in Hq; auto.
  - intros j o Hj Ho. destruct (v_op0 j o Hj Ho) as (b & B1 & B2 & B3 & B4). exists b. split; [exact B1|]. split; [exact B2|]. split; [|exact B4].
    destruct (Z.eq_dec b a) as [->|Hne]; [|now rewrite Up]. apply zget_Some_range in Hj. lia.
  - intros b Hb. destruct (Z.eq_dec b a) as [->|Hne]; [rewrite UpA; now left|rewrite Up by exact Hne; auto].
  - intros j e E1 E2. destruct (Z.eq_dec j i) as [->|Hj]; [left; exists a; rewrite UpA; auto|].
    destruct (Z_lt_ge_dec j (w_cap (wp s))) as [Hlt|Hge]; [|exfalso; apply E2; eapply New; eauto; lia].
    assert (Rj : inr (wp s) j). { pose proof (slot_range _ _ _ Sh E1) as X. unfold inr in *. lia. } destruct (Keep j Hj Rj) as [K1 _]. rewrite K1 in E1.
    destruct (v_own0 j e E1 E2) as [(b & B1 & B2)|H]; [|now right]. left. exists b. split; [exact B1|]. destruct (Z.eq_dec b a) as [->|Hne]; [|now rewrite Up].
    exfalso. destruct Old as [(O1 & _ & O2)|(O1 & _)]; [|congruence]. rewrite O1 in B2. injection B2 as B2. apply (loc_inj (wp s)) in B2; auto.
  - intros b Hb. destruct (Z.eq_dec b a) as [->|Hne].
    + rewrite UpA. cbn [f_opi f_op]. split; [auto|]. intros o Ho. apply zget_Some_range in Ho. lia.
    + rewrite Up by exact Hne. rewrite MB by assumption. auto.
  - rewrite Up by congruence. auto.
  - split; [|now apply own_set]. rewrite cntb_upf by tauto. unfold has at 2 3. cbn. destruct Old as [(-> & -> & _)|(-> & -> & _)]; lia.
Qed.

(** A structure gives up its slot. *)
Lemma inv_clear ids dat fd0 M M' L base s p' a i opi :
  inv ids dat fd0 M L base s -> In a ids -> f_opi (wf s a) = -1 -> opi = -1 ->
  M' a = 0 -> (forall b, In b ids -> b <> a -> M' b = M b) ->
  f_pd (wf s a) = Some (loc i) -> inr (wp s) i ->
  shape p' -> w_cap p' = w_cap (wp s) -> w_count p' = w_count (wp s) - 1 -> (forall ev, w_events p' = Live ev -> w_count p' = cntu ev) ->
  (forall j, j <> i -> inr (wp s) j -> slot p' j = slot (wp s) j /\ cel p' j = cel (wp s) j) ->
  (exists e, slot p' i = Some e /\ pf_fd e = INVALID) ->
  inv ids dat fd0 M' L base (mk_wst p' (upf (wf s) a (mk_wfd (f_fd (wf s a)) 0 None opi))).
Proof.
  intros V Ha Hopi -> MA MB Pa Ri Sh Cap Cn Cnt Keep (e0 & Se & Fe). destruct V.
  assert (B0 : 0 <= base) by tauto. assert (Nw : a <> WAKE) by (intros ->; tauto). assert (Ia : In a (WAKE :: ids)) by (now right).
  assert (Rr : forall j, inr p' j <-> inr (wp s) j) by (unfold inr; rewrite Cap; tauto).
  assert (Up : forall b, b <> a -> upf (wf s) a (mk_wfd (f_fd (wf s a)) 0 None (-1)) b = wf s b).
  { intros b Hb. unfold upf. destruct (b =? a) eqn:E; [lia|reflexivity]. }
  assert (UpA : upf (wf s) a (mk_wfd (f_fd (wf s a)) 0 None (-1)) a = mk_wfd (f_fd (wf s a)) 0 None (-1)).
  { unfold upf. rewrite Z.eqb_refl. reflexivity. }
  constructor; cbn [wp wf]; auto.
  - intros b Hb. destruct (Z.eq_dec b a) as [->|Hne]; [rewrite UpA; cbn; auto|rewrite Up by exact Hne; auto].
  - intros b Hb. destruct (Z.eq_dec b a) as [->|Hne].
    + rewrite UpA. cbn. split; [unfold mok; lia|]. now left.
    + rewrite Up by exact Hne. destruct (v_id0 b Hb) as (Mb & [H|(H & j & I1 & I2 & E & C)]); split; auto. right. split; [exact H|].
      assert (j <> i). { intros ->. eapply (v_sep0 b a); eauto. }
      destruct (Keep j ltac:(assumption) I1) as [K1 K2]. exists j. split; [now apply Rr|]. split; [exact I2|]. rewrite K1, K2. auto.
  - intros b c q Hb Hc Hne. destruct (Z.eq_dec b a) as [->|Hb']; [rewrite UpA; discriminate|]. rewrite (Up b) by exact Hb'.
    destruct (Z.eq_dec c a) as [->|Hc']; [rewrite UpA; discriminate|]. rewrite Up by exact Hc'. eauto.
  - intros j o Hj Ho. destruct (v_full0 j o Hj Ho) as (n & I1 & I2 & E & C & A). exists n.
    assert (n <> i). { intros ->. eapply A; eauto. }
    destruct (Keep n ltac:(assumption) I1) as [K1 K2]. split; [now apply Rr|]. split; [exact I2|]. rewrite K1, K2. split; [exact E|]. split; [exact C|].
    intros b Hb. destruct (Z.eq_dec b a) as [->|Hne]; [rewrite UpA; discriminate|]. rewrite Up by exact Hne; auto.
  - intros j o Hj Ho. destruct (v_op0 j o Hj Ho) as (b & B1 & B2 & B3 & B4). exists b. split; [exact B1|]. split; [exact B2|]. split; [|exact B4].
    destruct (Z.eq_dec b a) as [->|Hne]; [|now rewrite Up]. apply zget_Some_range in Hj. lia.
  - intros b Hb. destruct (Z.eq_dec b a) as [->|Hne]; [rewrite UpA; now left|rewrite Up by exact Hne; auto].
  - intros j e E1 E2. destruct (Z.eq_dec j i) as [->|Hj]; [exfalso; congruence|].
    assert (Rj : inr (wp s) j) by (apply Rr; eapply slot_range; eauto). destruct (Keep j Hj Rj) as [K1 _]. rewrite K1 in E1.
    destruct (v_own0 j e E1 E2) as [(b & B1 & B2)|H]; [|now right]. left. exists b. split; [exact B1|]. destruct (Z.eq_dec b a) as [->|Hne]; [|now rewrite Up].
    exfalso. rewrite Pa in B2. injection B2 as B2. apply (loc_inj (wp s)) in B2; auto.
  - intros b Hb. destruct (Z.eq_dec b a) as [->|Hne].
    + rewrite UpA. cbn [f_opi f_op]. split; [auto|]. intros o Ho. apply zget_Some_range in Ho. lia.
    + rewrite Up by exact Hne. rewrite MB by assumption. auto.
  - rewrite Up by congruence. auto.
  - split; [|apply own_none; [reflexivity|apply v_num0]]. rewrite cntb_upf by tauto. unfold has at 2 3. cbn. rewrite Pa. rewrite Cn. lia.
Qed.

(** A deletion that was put off is carried out. *)
Lemma inv_drop ids dat fd0 M o L base s p' i :
  inv ids dat fd0 M (o :: L) base s -> o_full o = true -> o_pd o = Some (loc i) -> inr (wp s) i ->
  shape p' -> w_cap p' = w_cap (wp s) -> w_count p' = w_count (wp s) - 1 -> (forall ev, w_events p' = Live ev -> w_count p' = cntu ev) ->
  (forall j, j <> i -> inr (wp s) j -> slot p' j = slot (wp s) j /\ cel p' j = cel (wp s) j) ->
  (exists e, slot p' i = Some e /\ pf_fd e = INVALID) ->
  inv ids dat fd0 M L (base + 1) (mk_wst p' (wf s)).
Proof.
  intros V Fo Po Ri Sh Cap Cn Cnt Keep (e0 & Se & Fe). destruct V.
  assert (Rr : forall j, inr p' j <-> inr (wp s) j) by (unfold inr; rewrite Cap; tauto).
  assert (B0 : 0 <= base) by tauto. assert (Z0 : zget (o :: L) 0 = Some o) by apply zget_cons0.
  assert (ZS : forall j x, zget L j = Some x -> zget (o :: L) (j + 1) = Some x).
  { intros j x H. pose proof (zget_Some_range _ _ _ H). rewrite zget_consS by lia. replace (j + 1 - 1) with j by lia. exact H. }
  destruct (v_full0 0 o Z0 Fo) as (i' & I1 & I2 & _ & _ & A0). rewrite Po in I2. injection I2 as I2. apply (loc_inj (wp s)) in I2; auto. subst i'.
  assert (Zn : forall n x, zget (o :: L) n = Some x -> o_full x = false -> zget L (n - 1) = Some x).
  { intros n x H1 H2. pose proof (zget_Some_range _ _ _ H1). rewrite zget_cons in H1. destruct (n =? 0) eqn:E; [congruence|]. exact H1. }
  constructor; cbn [wp wf]; auto.
  - split; [tauto|]. split; [tauto|]. split; [tauto|lia].
  - intros b Hb. destruct (v_id0 b Hb) as (Mb & [H|(H & j & I3 & I4 & E & C)]); split; auto. right. split; [exact H|].
    assert (j <> i). { intros ->. eapply A0; eauto. }
    destruct (Keep j ltac:(assumption) I3) as [K1 K2]. exists j. split; [now apply Rr|]. split; [exact I4|]. rewrite K1, K2. auto.
  - intros j x Hj Hx. destruct (v_full0 (j + 1) x (ZS _ _ Hj) Hx) as (n & I3 & I4 & E & C & A). exists n.
    assert (n <> i). { intros ->. apply (v_fsep0 0 (j + 1) o x); auto; [|congruence]. apply zget_Some_range in Hj. lia. }
    destruct (Keep n ltac:(assumption) I3) as [K1 K2]. split; [now apply Rr|]. split; [exact I4|]. rewrite K1, K2. auto.
  - intros j j' x x' H1 H2 Hne. apply (v_fsep0 (j + 1) (j' + 1)); auto. lia.
  - intros j x Hj Hx. destruct (v_op0 (j + 1) x (ZS _ _ Hj) Hx) as (b & B1 & B2 & B3 & B4). exists b. split; [exact B1|]. split; [exact B2|]. split; [lia|exact B4].
  - intros b Hb. destruct (v_opi0 b Hb) as [H|(x & X1 & X2 & X3)]; [now left|]. right. exists x. split; [|auto]. replace (f_opi (wf s b) - (base + 1)) with (f_opi (wf s b) - base - 1) by lia. auto.
  - intros j e E1 E2. destruct (Z.eq_dec j i) as [->|Hj]; [exfalso; congruence|].
    assert (Rj : inr (wp s) j) by (apply Rr; eapply slot_range; eauto). destruct (Keep j Hj Rj) as [K1 _]. rewrite K1 in E1.
    destruct (v_own0 j e E1 E2) as [H|(n & x & X1 & X2 & X3)]; [now left|]. right. rewrite zget_cons in X1. destruct (n =? 0) eqn:E; [|eauto].
    injection X1 as <-. exfalso. rewrite Po in X3. injection X3 as X3. apply (loc_inj (wp s)) in X3; auto.
  - intros b Hb. destruct (v_mask0 b Hb) as [M1 M2]. split; [exact M1|]. intros x Hx. apply (M2 x). apply ZS in Hx. replace (f_opi (wf s b) - (base + 1) + 1) with (f_opi (wf s b) - base) in Hx by lia. exact Hx.
  - destruct v_num0 as [v_num0 v_own1]. split; [|exact (own_drop _ _ _ _ Fo v_own1)]. cbn [cntb] in v_num0. rewrite Fo in v_num0. lia.
Qed.

(** ** The functions *)

Definition rest (p : wpoll) := (w_ops p, w_opcap p, w_opnull p, w_polling p, (w_rem p, w_off p, w_res p)).
Definition counted (p : wpoll) : Prop := forall ev, w_events p = Live ev -> w_count p = cntu ev.
Lemma expand_ok p o : shape p -> counted p -> w_count p < 2 ^ 19 -> m_chunk o = true ->
  (expand p o = Ok (p, -1) /\ m_events o = false) \/
  exists p', expand p o = Ok (p', 0) /\ shape p' /\ w_cap p <= w_cap p' /\ w_count p' = w_count p /\ w_count p' < w_cap p' /\ counted p' /\ rest p' = rest p /\
    (forall j, inr p j -> slot p' j = slot p j /\ cel p' j = cel p j) /\ (forall j e, w_cap p <= j -> slot p' j = Some e -> pf_fd e = INVALID).
Proof.
  intros Sh Cn Lt Mc. assert (Sh' := Sh). destruct Sh' as (k & ev & K & C & D & S & E & L). unfold expand. pose proof (Cn ev E) as Cv. pose proof (cntu_range ev) as Cr.
  destruct (w_count p =? w_cap p) eqn:Ec.
  - assert (K' : k < 15). { apply Z.eqb_eq in Ec. rewrite Ec, C in Lt. change (2 ^ 19) with (16 * 2 ^ 15) in Lt. apply (Z.pow_lt_mono_r_iff 2); lia. }
    assert (P : 0 < 2 ^ k <= 2 ^ 14) by (split; [apply Z.pow_pos_nonneg; lia|apply Z.pow_le_mono_r; lia]). change (2 ^ 14) with 16384 in P.
    unfold SIZE_MAX. change (2147483647 / 2) with 1073741823. destruct (w_cap p >=? 1073741823) eqn:Eg; [lia|]. unfold ev_block. rewrite E. cbn [bind].
    destruct (m_events o) eqn:Em; cbn [negb]; [|left; auto]. right. rewrite Mc. destruct ((zlen (w_data p) <? 16) && true) eqn:Ed; [|lia]. eexists. split; [reflexivity|].
    set (p' := mk_wpoll _ _ _ _ _ _ _ _ _ _ _ _).
    assert (Sh' : shape p').
    { exists (k + 1), (ev ++ repeat (mk_pfd INVALID (m_junk o) (m_junk o)) (Z.to_nat (w_cap p * 2 - w_cap p))). unfold p'. cbn -[Z.mul Z.pow repeat Z.to_nat]. rewrite Z.pow_add_r by lia.
      change (2 ^ 1) with 2. split; [lia|]. split; [lia|]. split; [rewrite zlen_app, zlen_cons, zlen_nil; lia|]. split; [|split; [reflexivity|rewrite zlen_app, zlen_repeat; lia]].
      intros j ch Hj. rewrite zget_app in Hj. destruct (j <? zlen (w_data p)) eqn:Ej; [eauto|]. pose proof (zget_Some_range _ _ _ Hj) as Rj. rewrite zlen_cons, zlen_nil in Rj.
      rewrite zget_cons in Hj. destruct (j - zlen (w_data p) =? 0) eqn:Ez; [|lia]. injection Hj as <-. rewrite zlen_repeat. unfold csize. destruct (j =? 0) eqn:E0; [lia|].
      replace (j + 3) with (k + 4) by lia. rewrite Z.pow_add_r by lia. change (2 ^ 4) with 16. lia. }
    split; [exact Sh'|]. split; [unfold p'; cbn [w_cap]; lia|]. split; [reflexivity|]. split; [unfold p'; cbn [w_count w_cap]; lia|]. split.
    { intros ev' E'. unfold p' in E'. cbn in E'. injection E' as <-. unfold p'. cbn [w_count]. rewrite cntu_app, cntu_free. lia. }
    split; [reflexivity|]. split.
    + intros j Hj. unfold slot, cel. rewrite E. unfold p'. cbn [w_events w_data]. unfold inr in Hj. split; [apply zget_app1; lia|].
      assert (Hj' := Hj). rewrite C in Hj'. destruct (loc_spec j k K Hj') as (_ & X & _). rewrite zget_app1 by lia. reflexivity.
    + intros j e Hj He. unfold slot, p' in He. cbn [w_events] in He. rewrite zget_app2 in He by lia. apply zget_In in He. apply repeat_spec in He. subst e. reflexivity.
  - right. exists p. split; [reflexivity|]. split; [exact Sh|]. split; [lia|]. split; [reflexivity|]. split; [lia|]. split; [exact Cn|]. split; [reflexivity|]. split; [auto|].
    intros j e Hj He. apply (slot_range p) in He; [|exact Sh]. unfold inr in He. lia.
Qed.
Lemma inv_count ids dat fd0 M L base s a : inv ids dat fd0 M L base s -> In a ids -> has (wf s a) = false -> unowned ids (wf s) L a -> w_count (wp s) < 2 ^ 19.
Proof.
  intros V Ha Hh Hf. destruct (v_num _ _ _ _ _ _ _ V) as [V1 _]. destruct (v_ids _ _ _ _ _ _ _ V) as (V2 & _ & V3 & _). pose proof (own_bound _ _ _ _ V2 Ha Hh Hf). lia.
Qed.
Lemma set_data_shape p d v : shape (set_data p d) -> shape (set_count (set_data p d) v).
Proof. intros H. exact H. Qed.

Lemma wev_mask m : mok m -> win_events m = wbit (Z.testbit m 0) WPOLLIN + wbit (Z.testbit m 1) WPOLLOUT.
Proof. intros [H _]. assert (C : m = 0 \/ m = 1 \/ m = 2 \/ m = 3 \/ m = 4 \/ m = 5 \/ m = 6 \/ m = 7) by lia. decompose [or] C; subst; reflexivity. Qed.

Lemma wland_bit w n : 0 <= n -> (Z.land w (2 ^ n) =? 0) = negb (Z.testbit w n).
Proof.
  intro Hn. destruct (Z.testbit w n) eqn:E; cbn [negb].
  - apply Z.eqb_neq. intro Z0. assert (K : Z.testbit (Z.land w (2 ^ n)) n = false) by (rewrite Z0; apply Z.testbit_0_l). rewrite Z.land_spec, E, Z.pow2_bits_true in K by lia. discriminate.
  - apply Z.eqb_eq. apply Z.bits_inj'. intros i Hi. rewrite Z.land_spec, Z.testbit_0_l. destruct (Z.eq_dec i n) as [->|N]; [now rewrite E|]. rewrite Z.pow2_bits_false by lia. apply andb_false_r.
Qed.

Definition capr (s s' : wst) : Prop := rest (wp s') = rest (wp s) /\ w_cap (wp s) <= w_cap (wp s').
(** sc_sock_poll_add when no thread polls. *)
Lemma add_ok ids dat fd0 M L base s a ev o : inv ids dat fd0 M L base s -> w_polling (wp s) = false -> In a ids -> unowned ids (wf s) L a -> f_opi (wf s a) = -1 ->
  0 <= ev < 8 -> m_chunk o = true ->
  exists s' rc, win_add s a ev (dat a) o = Ok (s', rc) /\ w_polling (wp s') = false /\ capr s s' /\ f_opi (wf s' a) = -1 /\
    ((rc = -1 /\ m_events o = false /\ inv ids dat fd0 M L base s' /\ wf s' = wf s) \/
     (rc = 0 /\ inv ids dat fd0 (fun b => if b =? a then wsettle (Z.lor (M a) ev) else M b) L base s' /\ f_op (wf s' a) = wsettle (Z.lor (f_op (wf s a)) ev))).
Proof.
  intros V Np Ha Hf Ho Hev Mc. assert (V' := V). destruct V'.
  assert (Ia : In a (WAKE :: ids)) by (now right). destruct (v_id0 a Ia) as [Mo Hold]. destruct (v_mask0 a Ha) as [MA _]. specialize (MA Ho).
  unfold win_add. rewrite Np. set (t := wf s a) in *. set (mask := if Z.lor (f_op t) ev =? SEDGE then 0 else Z.lor (f_op t) ev).
  assert (Em : mask = wsettle (Z.lor (f_op t) ev)) by reflexivity.
  assert (Mm : mok mask /\ (f_op t <> 0 -> mask <> 0)).
  { rewrite Em. destruct Mo as [Mo1 Mo2]. assert (C : f_op t = 0 \/ f_op t = 1 \/ f_op t = 2 \/ f_op t = 3 \/ f_op t = 5 \/ f_op t = 6 \/ f_op t = 7) by lia.
    assert (C' : ev = 0 \/ ev = 1 \/ ev = 2 \/ ev = 3 \/ ev = 4 \/ ev = 5 \/ ev = 6 \/ ev = 7) by lia.
    unfold mok. decompose [or] C; decompose [or] C'; match goal with H : f_op t = _ |- _ => rewrite H end; subst ev; cbn; lia. }
  destruct Mm as [Mm Mn]. destruct (f_op t =? mask) eqn:Eq.
  { exists s, 0. split; [reflexivity|]. split; [exact Np|]. split; [split; [reflexivity|apply Z.le_refl]|]. split; [exact Ho|]. right. split; [reflexivity|]. split; [|fold t; rewrite <- Em; lia].
    constructor; auto. intros b Hb. cbn beta. destruct (b =? a) eqn:E; [|auto]. apply Z.eqb_eq in E. subst b. fold t. rewrite MA. destruct (v_mask0 a Ha) as [W1 W2]. fold t in W1, W2. fold t in Ho.
    split; [intros _; rewrite <- Em; lia|]. intros x Hx. exfalso. apply zget_Some_range in Hx. rewrite Ho in Hx. destruct v_ids0 as (_ & _ & _ & B). lia. }
  assert (Mz : mask <> 0). { destruct Hold as [[H _]|[H _]]; [lia|auto]. }
  (* the common tail *)
  assert (Tail : forall p1 i, shape p1 -> w_cap (wp s) <= w_cap p1 -> inr p1 i -> rest p1 = rest (wp s) ->
    (f_pd t = Some (loc i) /\ w_count p1 = w_count (wp s) /\ inr (wp s) i \/ f_pd t = None /\ w_count p1 = w_count (wp s) + 1 /\ (forall e, slot (wp s) i = Some e -> pf_fd e = INVALID)) ->
    counted p1 ->
    (forall j, j <> i -> inr (wp s) j -> slot p1 j = slot (wp s) j /\ cel p1 j = cel (wp s) j) ->
    (forall j e, j <> i -> w_cap (wp s) <= j -> slot p1 j = Some e -> pf_fd e = INVALID) ->
    (exists e, slot p1 i = Some e /\ pf_fd e = f_fd t) ->
    (exists c, cel p1 i = Some c /\ c_index c = i /\ (Z.testbit (c_edge c) 2 = true -> Z.testbit mask 2 = true)) ->
    exists s' rc, (let* ev := ev_block p1 in
        let* e := zload ev i in
        let* ev := zput ev i (mk_pfd (pf_fd e) (win_events mask) 0) in
        let p := set_events p1 (Live ev) in
        let* c := cell_get p (loc i) in
        let edge := if Z.land mask SEDGE =? 0 then c_edge c else Z.lor (c_edge c) SEDGE in
        let* p := cell_put p (loc i) (mk_cell edge (c_index c) (dat a)) in
        Ok (mk_wst p (upf (wf s) a (mk_wfd (f_fd t) mask (Some (loc i)) (f_opi t))), 0)) = Ok (s', rc) /\ w_polling (wp s') = false /\ capr s s' /\ f_opi (wf s' a) = -1 /\
     rc = 0 /\ inv ids dat fd0 (fun b => if b =? a then wsettle (Z.lor (M a) ev) else M b) L base s' /\ f_op (wf s' a) = wsettle (Z.lor (f_op (wf s a)) ev)).
  { intros p1 i Sh1 Cap1 Ri R1 Old C1 Keep New (e & Se & Fe) (c & Ce & Ci & Cb).
    destruct (ev_block_ok p1 Sh1) as (ev1 & EB & El & Len & Sl). rewrite EB. cbn [bind]. assert (Ge : zget ev1 i = Some e) by (rewrite <- Sl; exact Se).
    rewrite (zload_ok _ _ _ Ge). cbn [bind]. set (e' := mk_pfd (pf_fd e) (win_events mask) 0). destruct (ev_put_ok p1 ev1 i e' Sh1 El Ri) as (P1 & P2 & P3 & P4 & P5).
    rewrite P1. cbn [bind]. set (p2 := set_events p1 (Live (zset ev1 i e'))) in *. assert (Ce2 : cel p2 i = Some c) by (rewrite P5; exact Ce). rewrite (cell_get_ok _ _ _ Ce2). cbn [bind].
    set (edge := if Z.land mask SEDGE =? 0 then c_edge c else Z.lor (c_edge c) SEDGE).
    destruct (cell_put_ok p2 i (mk_cell edge (c_index c) (dat a)) P2 Ri) as (d & Q1 & Q2 & Q3 & Q4). cbv zeta. rewrite Q1. cbn [bind]. eexists _, 0. split; [reflexivity|].
    cbn [wp wf]. split; [change (w_polling (set_data p2 d)) with (w_polling p1); unfold rest in R1; congruence|]. split; [split; [exact R1|exact Cap1]|]. split; [unfold upf; rewrite Z.eqb_refl; exact Ho|]. split; [reflexivity|].
    split; [|unfold upf; rewrite Z.eqb_refl; exact Em].
    apply (inv_set ids dat fd0 M _ L base s (set_data p2 d) a i mask (f_opi t)); auto.
    - rewrite Z.eqb_refl, MA. reflexivity.
    - intros b Hb Hne. destruct (b =? a) eqn:E; [lia|reflexivity].
    - intros evx Ex. cbn in Ex. injection Ex as <-. change (w_count (set_data p2 d)) with (w_count p1). rewrite (cntu_set _ _ e) by exact Ge. rewrite (C1 ev1 El). unfold inuse, e'. cbn. lia.
    - intros j Hj Rj. destruct (Keep j Hj Rj) as [K1 K2]. split; [change (slot (set_data p2 d) j) with (slot p2 j); now rewrite P4|]. rewrite Q4 by (auto; unfold inr in *; cbn; lia). now rewrite P5.
    - intros j x Hj Rj Hx. change (slot (set_data p2 d) j) with (slot p2 j) in Hx. rewrite P4 in Hx by auto. eauto.
    - exists e'. split; [exact P3|]. split; [exact Fe|reflexivity].
    - eexists. split; [exact Q3|]. cbn [c_edge c_index c_data]. split; [exact Ci|]. split; [reflexivity|]. unfold edge. change SEDGE with (2 ^ 2). rewrite wland_bit by lia.
      destruct (Z.testbit mask 2) eqn:Tb; cbn [negb].
      + rewrite Z.lor_spec. change (Z.testbit (2 ^ 2) 2) with true. apply orb_true_r.
      + destruct (Z.testbit (c_edge c) 2); [|reflexivity]. symmetry. apply Cb. reflexivity. }
  unfold slot_for. fold t in Hold. destruct (f_op t =? 0) eqn:E0.
  - destruct Hold as [[_ Pd]|[H _]]; [|lia].
    destruct (expand_ok (wp s) o v_shape0 v_count0 (inv_count _ _ _ _ _ _ _ a V Ha ltac:(unfold has; fold t; rewrite Pd; reflexivity) Hf) Mc) as [[X1 X2]|(p1 & X1 & Sh1 & Cap1 & Cn1 & Cl1 & C1 & R1 & Keep1 & New1)]; rewrite X1; cbn [bind].
    + exists s, (-1). replace (negb (-1 =? 0)) with true by reflexivity. split; [destruct s; reflexivity|]. split; [exact Np|]. split; [split; [reflexivity|apply Z.le_refl]|]. split; [exact Ho|]. left. auto.
    + replace (negb (0 =? 0)) with false by reflexivity. set (p2 := set_count p1 (w_count p1 + 1)). assert (Sh2 : shape p2) by exact Sh1.
      destruct (ev_block_ok p2 Sh2) as (ev2 & EB & El & Len & Sl). rewrite EB. cbn [bind].
      destruct (free_slot_found ev2 0) as (i & e & F1 & F2 & F3). { change (w_events p2) with (w_events p1) in El. rewrite <- (C1 _ El), Len. exact Cl1. }
      rewrite F1. cbn [or_ub bind]. rewrite Z.add_0_l. assert (Ri : inr p2 i) by (apply (slot_range p2 i e Sh2); rewrite Sl; exact F2).
      rewrite (loc_inner p2 i Sh2 Ri). cbn [bind]. destruct (cel_in p2 i Sh2 Ri) as [c Ce]. rewrite (cell_get_ok _ _ _ Ce). cbn [bind].
      destruct (cell_put_ok p2 i (mk_cell 0 i (c_data c)) Sh2 Ri) as (d & Q1 & Q2 & Q3 & Q4). rewrite Q1. cbn [bind]. rewrite (zload_ok _ _ _ F2). cbn [bind].
      destruct (ev_put_ok (set_data p2 d) ev2 i (mk_pfd (f_fd t) (pf_ev e) (pf_rev e)) Q2 El Ri) as (P1 & P2 & P3 & P4 & P5). rewrite P1. cbn [bind].
      destruct (Tail (set_events (set_data p2 d) (Live (zset ev2 i (mk_pfd (f_fd t) (pf_ev e) (pf_rev e))))) i) as (s' & rc & T1 & T2 & T3 & T4 & T5 & T6); auto.
      * right. split; [exact Pd|]. split; [cbn; lia|]. intros e1 H1. pose proof (slot_range _ _ _ v_shape0 H1) as R. destruct (Keep1 i R) as [K1 _].
        assert (slot p1 i = Some e) by (change (slot p1 i) with (slot p2 i); rewrite Sl; exact F2). congruence.
      * intros evx Ex. cbn in Ex. injection Ex as <-. cbn [w_count set_events set_data]. rewrite (cntu_set _ _ e) by exact F2. change (w_events p2) with (w_events p1) in El. unfold p2. cbn [w_count set_count].
        rewrite (C1 ev2 El). unfold inuse. cbn [pf_fd]. rewrite F3, Z.eqb_refl. destruct (v_fd0 a Ia) as [Fd1 Fd2]. fold t in Fd1. destruct (f_fd t =? INVALID) eqn:Ei; lia.
      * intros j Hj Rj. destruct (Keep1 j Rj) as [K1 K2]. rewrite P4 by auto. rewrite P5. change (slot (set_data p2 d) j) with (slot p1 j). split; [exact K1|]. rewrite Q4; auto. unfold inr in *. cbn. lia.
      * intros j e1 Hj Rj He. rewrite P4 in He by auto. change (slot (set_data p2 d) j) with (slot p1 j) in He. eauto.
      * eexists. split; [exact P3|]. reflexivity.
      * eexists. split; [rewrite P5; exact Q3|]. split; [reflexivity|]. cbn. discriminate.
      * exists s', rc. split; [exact T1|]. split; [exact T2|]. split; [exact T3|]. split; [exact T4|]. right. auto.
  - destruct Hold as [[H _]|(_ & i & Ri & Pd & (e & Se & Fe & _) & (c & Ce & Ci & _ & Cb))]; [lia|]. rewrite Pd. cbn [or_ub bind]. rewrite (cell_get_ok _ _ _ Ce). cbn [bind]. rewrite Ci.
    destruct (Tail (wp s) i) as (s' & rc & T1 & T2 & T3 & T4 & T5 & T6); auto.
    + lia.
    + intros j e1 Hj Rj He. apply (slot_range (wp s)) in He; [|exact v_shape0]. unfold inr in He. lia.
    + eauto.
    + exists c. split; [exact Ce|]. split; [exact Ci|]. rewrite Cb. intros Tb. rewrite Em in *. unfold wsettle in *. destruct (Z.lor (f_op t) ev =? 4); [congruence|]. rewrite Z.lor_spec, Tb. reflexivity.
    + exists s', rc. split; [exact T1|]. split; [exact T2|]. split; [exact T3|]. split; [exact T4|]. right. auto.
Qed.

Lemma del_full_ok p i e c : shape p -> counted p -> inr p i -> slot p i = Some e -> pf_fd e <> INVALID -> cel p i = Some c -> c_index c = i ->
  exists p', del_full p (Some (loc i)) = Ok p' /\ shape p' /\ w_cap p' = w_cap p /\ w_count p' = w_count p - 1 /\ counted p' /\ rest p' = rest p /\
    (forall j, j <> i -> inr p j -> slot p' j = slot p j /\ cel p' j = cel p j) /\ (exists e', slot p' i = Some e' /\ pf_fd e' = INVALID).
Proof.
  intros Sh Cn Ri Se Fe Ce Ci. unfold del_full. cbn [or_ub bind]. rewrite (cell_get_ok _ _ _ Ce). cbn [bind]. rewrite Ci.
  destruct (ev_block_ok p Sh) as (ev & EB & El & Len & Sl). rewrite EB. cbn [bind]. assert (Ge : zget ev i = Some e) by (rewrite <- Sl; exact Se).
  rewrite (zload_ok _ _ _ Ge). cbn [bind]. destruct (ev_put_ok p ev i (mk_pfd INVALID (pf_ev e) (pf_rev e)) Sh El Ri) as (P1 & P2 & P3 & P4 & P5). rewrite P1. cbn [bind]. cbv zeta.
  set (p2 := set_count (set_events p (Live (zset ev i (mk_pfd INVALID (pf_ev e) (pf_rev e))))) (w_count p - 1)).
  destruct (cell_put_ok p2 i (mk_cell 0 i (c_data c)) P2 Ri) as (d & Q1 & Q2 & Q3 & Q4). rewrite Q1. eexists. split; [reflexivity|]. split; [exact Q2|]. split; [reflexivity|]. split; [reflexivity|]. split.
  { intros evx Ex. cbn in Ex. injection Ex as <-. cbn [w_count set_data p2 set_count]. rewrite (cntu_set _ _ e) by exact Ge. rewrite (Cn ev El). unfold inuse. cbn [pf_fd]. rewrite (Z.eqb_refl INVALID). destruct (pf_fd e =? INVALID) eqn:E; lia. }
  split; [reflexivity|]. split; [|eexists; split; [exact P3|reflexivity]]. intros j Hj Rj. split; [apply (P4 j Hj)|]. rewrite Q4 by auto. apply (P5 j).
Qed.
Lemma cases8' m : 0 <= m < 8 -> m = 0 \/ m = 1 \/ m = 2 \/ m = 3 \/ m = 4 \/ m = 5 \/ m = 6 \/ m = 7.
Proof. lia. Qed.
(** sc_sock_poll_del when no thread polls. *)
Lemma del_ok ids dat fd0 M L base s a ev o : inv ids dat fd0 M L base s -> w_polling (wp s) = false -> In a ids -> f_opi (wf s a) = -1 -> 0 <= ev < 8 ->
  exists s', win_del s a ev (dat a) o = Ok (s', 0) /\ w_polling (wp s') = false /\ capr s s' /\ f_opi (wf s' a) = -1 /\
    inv ids dat fd0 (fun b => if b =? a then wsettle (Z.ldiff (M a) ev) else M b) L base s' /\ f_op (wf s' a) = wsettle (Z.ldiff (f_op (wf s a)) ev).
Proof.
  intros V Np Ha Ho Hev. assert (V' := V). destruct V'.
  assert (Ia : In a (WAKE :: ids)) by (now right). destruct (v_id0 a Ia) as [Mo Hold]. destruct (v_mask0 a Ha) as [MA _]. specialize (MA Ho).
  unfold win_del. rewrite Np. set (t := wf s a) in *. set (op := if Z.land (f_op t) (Z.lnot ev) =? SEDGE then 0 else Z.land (f_op t) (Z.lnot ev)).
  assert (Em : op = wsettle (Z.ldiff (f_op t) ev)). { unfold op, wsettle. rewrite Z.ldiff_land. reflexivity. }
  assert (Mm : mok op /\ (Z.land (f_op t) ev = 0 -> op = f_op t) /\ (Z.testbit op 2 = true -> Z.testbit (f_op t) 2 = true)).
  { rewrite Em. destruct Mo as [Mo1 Mo2]. assert (C := cases8' _ Mo1). assert (C' := cases8' _ Hev).
    unfold mok. decompose [or] C; decompose [or] C'; match goal with H : f_op t = _ |- _ => rewrite H in * end; subst ev; cbn; try lia; repeat split; try lia; intros; try discriminate; auto. }
  destruct Mm as (Mm & Mk & Mb). destruct (Z.land (f_op t) ev =? 0) eqn:El.
  { exists s. split; [reflexivity|]. split; [exact Np|]. split; [split; [reflexivity|apply Z.le_refl]|]. split; [exact Ho|]. apply Z.eqb_eq in El. split; [|fold t; rewrite <- Em; rewrite Mk by exact El; reflexivity].
    constructor; auto. intros b Hb. cbn beta. destruct (b =? a) eqn:E; [|auto]. apply Z.eqb_eq in E. subst b. fold t. rewrite MA. fold t in Ho.
    split; [intros _; rewrite <- Em; auto|]. intros x Hx. exfalso. apply zget_Some_range in Hx. rewrite Ho in Hx. destruct v_ids0 as (_ & _ & _ & B). lia. }
  destruct Hold as [[H _]|(_ & i & Ri & Pd & (e & Se & Fe & _) & (c & Ce & Ci & _ & Cb))]. { rewrite H in El. cbn in El. discriminate. }
  destruct (v_fd0 a Ia) as [Fd1 Fd2]. fold t in Fd1, Pd, Fe, Ho, Cb. destruct (op =? 0) eqn:E0.
  - rewrite Pd. destruct (del_full_ok (wp s) i e c) as (p' & D1 & D2 & D3 & D4 & D5 & D6 & D7 & D8); auto. { congruence. } rewrite D1. cbn [bind]. eexists. split; [reflexivity|].
    cbn [wp wf]. split; [unfold rest in D6; congruence|]. split; [split; [exact D6|cbn [wp]; rewrite D3; apply Z.le_refl]|]. split; [unfold upf; rewrite Z.eqb_refl; exact Ho|]. split; [|unfold upf; rewrite Z.eqb_refl; exact Em].
    replace op with 0 by lia. apply (inv_clear ids dat fd0 M _ L base s p' a i (f_opi t)); auto.
    + rewrite Z.eqb_refl, MA. rewrite <- Em. lia.
    + intros b Hb Hne. destruct (b =? a) eqn:E; [lia|reflexivity].
  - rewrite Pd. cbn [or_ub bind]. rewrite (cell_get_ok _ _ _ Ce). cbn [bind]. rewrite Ci. destruct (ev_block_ok (wp s) v_shape0) as (ev1 & EB & El1 & Len & Sl). rewrite EB. cbn [bind].
    assert (Ge : zget ev1 i = Some e) by (rewrite <- Sl; exact Se). rewrite (zload_ok _ _ _ Ge). cbn [bind].
    destruct (ev_put_ok (wp s) ev1 i (mk_pfd (pf_fd e) (win_events op) (pf_rev e)) v_shape0 El1 Ri) as (P1 & P2 & P3 & P4 & P5). rewrite P1. cbn [bind]. cbv zeta.
    set (p2 := set_events (wp s) (Live (zset ev1 i (mk_pfd (pf_fd e) (win_events op) (pf_rev e))))) in *.
    destruct (cell_put_ok p2 i (mk_cell (if Z.land op SEDGE =? 0 then 0 else c_edge c) i (dat a)) P2 Ri) as (d & Q1 & Q2 & Q3 & Q4). rewrite Q1. cbn [bind]. eexists. split; [reflexivity|].
    cbn [wp wf]. split; [exact Np|]. split; [split; [reflexivity|apply Z.le_refl]|]. split; [unfold upf; rewrite Z.eqb_refl; exact Ho|]. split; [|unfold upf; rewrite Z.eqb_refl; exact Em].
    apply (inv_set ids dat fd0 M _ L base s (set_data p2 d) a i op (f_opi t)); auto.
    + apply unowned_has; [apply v_num0|]. unfold has. fold t. rewrite Pd. reflexivity.
    + lia.
    + rewrite Z.eqb_refl, MA. rewrite <- Em. reflexivity.
    + intros b Hb Hne. destruct (b =? a) eqn:E; [lia|reflexivity].
    + cbn. lia.
    + intros evx Ex. cbn in Ex. injection Ex as <-. change (w_count (set_data p2 d)) with (w_count (wp s)). rewrite (cntu_set _ _ e) by exact Ge. rewrite (v_count0 ev1 El1). unfold inuse. cbn [pf_fd]. lia.
    + intros j Hj Rj. split; [change (slot (set_data p2 d) j) with (slot p2 j); now rewrite P4|]. rewrite Q4 by auto. now rewrite P5.
    + intros j x Hj Rj Hx. change (slot (set_data p2 d) j) with (slot p2 j) in Hx. rewrite P4 in Hx by auto. apply (slot_range (wp s)) in Hx; [|exact v_shape0]. unfold inr in Hx. lia.
    + eexists. split; [exact P3|]. split; [exact Fe|reflexivity].
    + eexists. split; [exact Q3|]. cbn [c_edge c_index c_data]. split; [reflexivity|]. split; [reflexivity|]. change SEDGE with (2 ^ 2). rewrite wland_bit by lia.
      destruct (Z.testbit op 2) eqn:Tb; cbn [negb]; [|reflexivity]. rewrite Cb. auto.
Qed.

(** ** Operations that are put off *)

Lemma zget_snoc {A} (l : list A) x j y : zget (l ++ [x]) j = Some y -> (j < zlen l /\ zget l j = Some y) \/ (j = zlen l /\ y = x).
Proof.
  rewrite zget_app. destruct (j <? zlen l) eqn:E; [left; split; [lia|assumption]|]. intros H. pose proof (zget_Some_range _ _ _ H) as R. rewrite zlen_cons, zlen_nil in R.
  rewrite zget_cons in H. destruct (j - zlen l =? 0) eqn:E0; [|lia]. injection H as <-. right. split; [lia|reflexivity].
Qed.
Lemma cntb_snoc {A} (f : A -> bool) l x : cntb f (l ++ [x]) = cntb f l + (if f x then 1 else 0).
Proof. induction l; cbn; [lia|]. rewrite IHl. lia. Qed.
Lemma cntb_zset {A} (f : A -> bool) l j x y : zget l j = Some x -> cntb f (zset l j y) = cntb f l - (if f x then 1 else 0) + (if f y then 1 else 0).
Proof.
  revert j. induction l as [|h l IH]; intros j H; [unfold zget in H; destruct (j <? 0); [discriminate|]; destruct (Z.to_nat j); discriminate|].
  pose proof (zget_Some_range _ _ _ H) as R. rewrite zget_cons in H. unfold zset. destruct (j <? 0) eqn:E; [lia|]. destruct (j =? 0) eqn:E0.
  - injection H as <-. replace j with 0 by lia. cbn. lia.
  - destruct (Z.to_nat j) eqn:En; [lia|]. cbn. specialize (IH (j - 1)). unfold zset in IH. destruct (j - 1 <? 0) eqn:E1; [lia|].
    replace (Z.to_nat (j - 1)) with n in IH by lia. rewrite IH by exact H. lia.
Qed.
(** The operation at place [j] now belongs to structure [a] (an operation of [a], or a new one at the end). *)
Lemma inv_put ids dat fd0 M M' L L' s a j o :
  inv ids dat fd0 M L 0 s -> In a ids ->
  (f_opi (wf s a) = -1 /\ j = zlen L /\ L' = L ++ [o] \/ f_opi (wf s a) = j /\ 0 <= j < zlen L /\ L' = zset L j o) ->
  (forall b, In b ids -> b <> a -> M' b = M b) -> 0 <= o_add o < 8 -> 0 <= o_del o < 8 -> o_data o = dat a ->
  o_full o = false -> o_fdt o = Some a -> M' a = Z.ldiff (Z.lor (f_op (wf s a)) (o_add o)) (o_del o) -> Z.land (M' a) 3 <> 0 ->
  inv ids dat fd0 M' L' 0 (mk_wst (wp s) (upf (wf s) a (mk_wfd (f_fd (wf s a)) (f_op (wf s a)) (f_pd (wf s a)) j))).
Proof.
  intros V Ha Hj MB Oa Od Odt Of Ofd MA Mn. destruct V.
  assert (Nw : a <> WAKE) by (intros ->; tauto). assert (Ia : In a (WAKE :: ids)) by (now right).
  set (t := mk_wfd (f_fd (wf s a)) (f_op (wf s a)) (f_pd (wf s a)) j).
  assert (Up : forall b, b <> a -> upf (wf s) a t b = wf s b). { intros b Hb. unfold upf. destruct (b =? a) eqn:E; [lia|reflexivity]. }
  assert (UpA : upf (wf s) a t a = t). { unfold upf. rewrite Z.eqb_refl. reflexivity. }
  assert (Uf : forall b, f_fd (upf (wf s) a t b) = f_fd (wf s b) /\ f_op (upf (wf s) a t b) = f_op (wf s b) /\ f_pd (upf (wf s) a t b) = f_pd (wf s b)).
  { intros b. destruct (Z.eq_dec b a) as [->|Hne]; [rewrite UpA|rewrite Up by exact Hne]; auto. }
  assert (J0 : 0 <= j) by (pose proof (zlen_nonneg L); lia).
  assert (Gj : zget L' j = Some o).
  { destruct Hj as [(_ & -> & ->)|(_ & R & ->)]; [|now apply zget_zset_eq]. rewrite zget_app2 by lia. rewrite Z.sub_diag. reflexivity. }
  assert (Gk : forall k x, k <> j -> zget L' k = Some x -> zget L k = Some x).
  { intros k x Hk Hx. destruct Hj as [(_ & -> & ->)|(_ & R & ->)]; [|rewrite zget_zset_neq in Hx; auto]. apply zget_snoc in Hx. destruct Hx as [[_ Hx]|[Hx _]]; [exact Hx|lia]. }
  assert (Gk' : forall k x, k <> j -> zget L k = Some x -> zget L' k = Some x).
  { intros k x Hk Hx. destruct Hj as [(_ & -> & ->)|(_ & R & ->)]; [|rewrite zget_zset_neq; auto]. rewrite zget_app1; [exact Hx|]. apply zget_Some_range in Hx. lia. }
  assert (Nf : forall x, zget L j = Some x -> o_full x = false).
  { intros x Hx. destruct Hj as [(_ & -> & _)|(Hi & _ & _)]; [apply zget_Some_range in Hx; lia|]. destruct (v_opi0 a Ha) as [H|(y & Y1 & Y2 & _)]; [lia|]. rewrite Z.sub_0_r, Hi in Y1. congruence. }
  constructor; cbn [wp wf]; auto.
  - intros b Hb. destruct (Uf b) as (-> & _ & _). auto.
  - intros b Hb. destruct (Uf b) as (U1 & -> & U3). rewrite U3. destruct (v_id0 b Hb) as [Mb [H|(H & i & I)]]; split; auto. right. split; [exact H|]. exists i. destruct (Uf b) as (-> & -> & ->). exact I.
  - intros b c q Hb Hc Hne. destruct (Uf b) as (_ & _ & ->). destruct (Uf c) as (_ & _ & ->). eauto.
  - intros k x Hk Hx. destruct (Z.eq_dec k j) as [->|Hne]; [congruence|]. destruct (v_full0 k x (Gk _ _ Hne Hk) Hx) as (i & I1 & I2 & I3 & I4 & I5). exists i. split; [exact I1|]. split; [exact I2|]. split; [exact I3|]. split; [exact I4|].
    intros b Hb. destruct (Uf b) as (_ & _ & ->). auto.
  - intros k k' x x' H1 H2 Hne F1 F2. destruct (Z.eq_dec k j) as [->|Hk]; [congruence|]. destruct (Z.eq_dec k' j) as [->|Hk']; [congruence|]. eauto.
  - intros k x Hk Hx. destruct (Z.eq_dec k j) as [->|Hne].
    + replace x with o in * by congruence. exists a. rewrite UpA. cbn. auto 6.
    + destruct (v_op0 k x (Gk _ _ Hne Hk) Hx) as (b & B1 & B2 & B3 & B4). exists b. split; [exact B1|]. split; [exact B2|]. split; [|exact B4].
      destruct (Z.eq_dec b a) as [->|Hb]; [|now rewrite Up]. exfalso. apply zget_Some_range in Hk. destruct Hj as [(H & _)|(H & _)]; lia.
  - intros b Hb. destruct (Z.eq_dec b a) as [->|Hne]; [right; exists o; rewrite UpA; cbn; rewrite Z.sub_0_r; auto|]. rewrite Up by exact Hne.
    destruct (v_opi0 b Hb) as [H|(y & Y1 & Y2 & Y3)]; [now left|]. right. exists y. split; [|auto]. apply Gk'; [|exact Y1]. intros E. rewrite E in Y1.
    destruct Hj as [(_ & -> & _)|(Hi & _ & _)]; [apply zget_Some_range in Y1; lia|]. destruct (v_opi0 a Ha) as [H|(z & Z1 & _ & Z3)]; [lia|]. rewrite Hi, Z.sub_0_r in Z1. congruence.
  - intros i e E1 E2. destruct (v_own0 i e E1 E2) as [(b & B1 & B2)|(k & x & X1 & X2 & X3)].
    + left. exists b. destruct (Uf b) as (_ & _ & ->). auto.
    + right. exists k, x. split; [|auto]. apply Gk'; [|exact X1]. intros ->. rewrite (Nf x X1) in X2. discriminate.
  - intros b Hb. destruct (Z.eq_dec b a) as [->|Hne].
    + rewrite UpA. cbn [f_opi f_op t]. rewrite Z.sub_0_r. split; [lia|]. intros x Hx. replace x with o by congruence. auto.
    + rewrite Up by exact Hne. rewrite MB by assumption. destruct (v_mask0 b Hb) as [M1 M2]. split; [exact M1|]. intros x Hx. apply (M2 x). apply Gk; [|exact Hx].
      intros E. rewrite E in Hx. destruct (v_opi0 b Hb) as [H|(y & Y1 & Y2 & Y3)]; [lia|]. rewrite E in Y1.
      destruct Hj as [(_ & -> & _)|(Hi & _ & _)]; [apply zget_Some_range in Y1; lia|]. destruct (v_opi0 a Ha) as [H|(z & Z1 & _ & Z3)]; [lia|]. rewrite Hi, Z.sub_0_r in Z1. congruence.
  - rewrite Up by congruence. auto.
  - rewrite (cntb_ext (fun b => has (upf (wf s) a t b)) (fun b => has (wf s b))). 2: { intros b Hb. unfold has. destruct (Uf b) as (_ & _ & ->). reflexivity. }
    destruct v_num0 as [v_num0 (own & v_own1)]. split.
    { destruct Hj as [(_ & -> & ->)|(_ & R & ->)].
      + rewrite cntb_snoc, Of. lia.
      + destruct (zget_in_range L j R) as [x Hx]. rewrite (cntb_zset _ _ _ _ _ Hx), Of, (Nf x Hx). lia. }
    exists own. apply (own_keep _ (wf s)). { intros b _. unfold has. destruct (Uf b) as (_ & _ & ->). auto. }
    destruct v_own1 as (O1 & O2 & O3). split; [exact O1|]. split; [exact O2|]. destruct Hj as [(_ & _ & ->)|(Hi & R & ->)]; [now apply owned_snoc|].
    destruct (v_opi0 a Ha) as [H|(z & Z1 & Z2 & Z3)]; [lia|]. rewrite Hi, Z.sub_0_r in Z1. apply (owned_zset o z); auto. congruence.
Qed.
(** The operation at place [j] now deletes the slot of structure [a], which gives it up. *)
Lemma inv_put_full ids dat fd0 M M' L L' s a j o :
  inv ids dat fd0 M L 0 s -> In a ids ->
  (f_opi (wf s a) = -1 /\ j = zlen L /\ L' = L ++ [o] \/ f_opi (wf s a) = j /\ 0 <= j < zlen L /\ L' = zset L j o) ->
  (forall b, In b ids -> b <> a -> M' b = M b) -> M' a = 0 -> o_full o = true -> o_pd o = f_pd (wf s a) -> has (wf s a) = true ->
  cntb (fun b => has (wf s b)) ids + cntb o_full L <= zlen ids ->
  inv ids dat fd0 M' L' 0 (mk_wst (wp s) (upf (wf s) a (mk_wfd (f_fd (wf s a)) 0 None (-1)))) /\
  cntb (fun b => has (upf (wf s) a (mk_wfd (f_fd (wf s a)) 0 None (-1)) b)) ids + cntb o_full L' <= zlen ids.
Proof.
  intros V Ha Hj MB MA Of Op Hh Hn. destruct V.
  assert (Nw : a <> WAKE) by (intros ->; tauto). assert (Ia : In a (WAKE :: ids)) by (now right).
  set (t := mk_wfd (f_fd (wf s a)) 0 None (-1)).
  assert (Up : forall b, b <> a -> upf (wf s) a t b = wf s b). { intros b Hb. unfold upf. destruct (b =? a) eqn:E; [lia|reflexivity]. }
  assert (UpA : upf (wf s) a t a = t). { unfold upf. rewrite Z.eqb_refl. reflexivity. }
  assert (J0 : 0 <= j) by (pose proof (zlen_nonneg L); lia).
  assert (Gj : zget L' j = Some o).
  { destruct Hj as [(_ & -> & ->)|(_ & R & ->)]; [|now apply zget_zset_eq]. rewrite zget_app2 by lia. rewrite Z.sub_diag. reflexivity. }
  assert (Gk : forall k x, k <> j -> zget L' k = Some x -> zget L k = Some x).
  { intros k x Hk Hx. destruct Hj as [(_ & -> & ->)|(_ & R & ->)]; [|rewrite zget_zset_neq in Hx; auto]. apply zget_snoc in Hx. destruct Hx as [[_ Hx]|[Hx _]]; [exact Hx|lia]. }
  assert (Gk' : forall k x, k <> j -> zget L k = Some x -> zget L' k = Some x).
  { intros k x Hk Hx. destruct Hj as [(_ & -> & ->)|(_ & R & ->)]; [|rewrite zget_zset_neq; auto]. rewrite zget_app1; [exact Hx|]. apply zget_Some_range in Hx. lia. }
  assert (Nf : forall x, zget L j = Some x -> o_full x = false).
  { intros x Hx. destruct Hj as [(_ & -> & _)|(Hi & _ & _)]; [apply zget_Some_range in Hx; lia|]. destruct (v_opi0 a Ha) as [H|(y & Y1 & Y2 & _)]; [lia|]. rewrite Z.sub_0_r, Hi in Y1. congruence. }
  assert (Nb : forall b, In b ids -> b <> a -> f_opi (wf s b) <> -1 -> f_opi (wf s b) <> j).
  { intros b Hb Hne Hb' E. destruct (v_opi0 b Hb) as [H|(y & Y1 & Y2 & Y3)]; [lia|]. rewrite Z.sub_0_r, E in Y1.
    destruct Hj as [(_ & -> & _)|(Hi & _ & _)]; [apply zget_Some_range in Y1; lia|]. destruct (v_opi0 a Ha) as [H|(z & Z1 & _ & Z3)]; [lia|]. rewrite Hi, Z.sub_0_r in Z1. congruence. }
  destruct (v_id0 a Ia) as [_ [[_ H]|(_ & i & Ri & Pd & (e & Se & Fe & _) & (c & Ce & Ci & _))]]; [unfold has in Hh; rewrite H in Hh; discriminate|].
  destruct (v_fd0 a Ia) as [Fd1 Fd2].
  assert (Hc : cntb (fun b => has (upf (wf s) a t b)) ids = cntb (fun b => has (wf s b)) ids - 1). { rewrite cntb_upf by tauto. rewrite Hh. unfold has at 2. cbn. lia. }
  assert (Hl : cntb o_full L' = cntb o_full L + 1).
  { destruct Hj as [(_ & -> & ->)|(_ & R & ->)]; [rewrite cntb_snoc, Of; lia|]. destruct (zget_in_range L j R) as [x Hx]. rewrite (cntb_zset _ _ _ _ _ Hx), Of, (Nf x Hx). lia. }
  split; [|lia]. constructor; cbn [wp wf]; auto.
  - intros b Hb. destruct (Z.eq_dec b a) as [->|Hne]; [rewrite UpA; cbn; auto|rewrite Up by exact Hne; auto].
  - intros b Hb. destruct (Z.eq_dec b a) as [->|Hne]; [rewrite UpA; cbn; split; [unfold mok; lia|now left]|rewrite Up by exact Hne; auto].
  - intros b c' q Hb Hc' Hne. destruct (Z.eq_dec b a) as [->|Hb']; [rewrite UpA; discriminate|]. rewrite (Up b) by exact Hb'.
    destruct (Z.eq_dec c' a) as [->|Hc'']; [rewrite UpA; discriminate|]. rewrite Up by exact Hc''. eauto.
  - intros k x Hk Hx. destruct (Z.eq_dec k j) as [->|Hne].
    + replace x with o in * by congruence. exists i. split; [exact Ri|]. split; [congruence|]. split; [exists e; split; [exact Se|congruence]|]. split; [eauto|].
      intros b Hb. destruct (Z.eq_dec b a) as [->|Hne]; [rewrite UpA; discriminate|]. rewrite Up by exact Hne. intros Hq. eapply (v_sep0 b a); eauto.
    + destruct (v_full0 k x (Gk _ _ Hne Hk) Hx) as (i' & I1 & I2 & I3 & I4 & I5). exists i'. split; [exact I1|]. split; [exact I2|]. split; [exact I3|]. split; [exact I4|].
      intros b Hb. destruct (Z.eq_dec b a) as [->|Hne']; [rewrite UpA; discriminate|]. rewrite Up by exact Hne'. auto.
  - intros k k' x x' H1 H2 Hne F1 F2. destruct (Z.eq_dec k j) as [->|Hk].
    + replace x with o in * by congruence. assert (Hk' : k' <> j) by congruence. destruct (v_full0 k' x' (Gk _ _ Hk' H2) F2) as (i' & I1 & I2 & _ & _ & I5). rewrite Op, I2. auto.
    + destruct (Z.eq_dec k' j) as [->|Hk']; [|eauto]. replace x' with o in * by congruence. destruct (v_full0 k x (Gk _ _ Hk H1) F1) as (i' & I1 & I2 & _ & _ & I5). rewrite Op, I2. intros E. symmetry in E. exact (I5 a Ia E).
  - intros k x Hk Hx. destruct (Z.eq_dec k j) as [->|Hne]; [congruence|]. destruct (v_op0 k x (Gk _ _ Hne Hk) Hx) as (b & B1 & B2 & B3 & B4). exists b. split; [exact B1|]. split; [exact B2|]. split; [|exact B4].
    destruct (Z.eq_dec b a) as [->|Hb]; [|now rewrite Up]. exfalso. apply zget_Some_range in Hk. destruct Hj as [(H & _)|(H & _)]; lia.
  - intros b Hb. destruct (Z.eq_dec b a) as [->|Hne]; [left; rewrite UpA; reflexivity|]. rewrite Up by exact Hne.
    destruct (v_opi0 b Hb) as [H|(y & Y1 & Y2 & Y3)]; [now left|]. right. exists y. split; [|auto]. apply Gk'; [|exact Y1]. rewrite Z.sub_0_r. apply Nb; auto.
    intros H. rewrite H in Y1. discriminate.
  - intros i' e' E1 E2. destruct (v_own0 i' e' E1 E2) as [(b & B1 & B2)|(k & x & X1 & X2 & X3)].
    + destruct (Z.eq_dec b a) as [->|Hne]; [right; exists j, o; split; [exact Gj|]; split; [exact Of|congruence]|]. left. exists b. rewrite Up by exact Hne. auto.
    + right. exists k, x. split; [|auto]. apply Gk'; [|exact X1]. intros ->. rewrite (Nf x X1) in X2. discriminate.
  - intros b Hb. destruct (Z.eq_dec b a) as [->|Hne].
    + rewrite UpA. cbn [f_opi f_op t]. split; [auto|]. intros x Hx. apply zget_Some_range in Hx. lia.
    + rewrite Up by exact Hne. rewrite MB by assumption. destruct (v_mask0 b Hb) as [M1 M2]. split; [exact M1|]. intros x Hx. apply (M2 x). apply Gk; [|exact Hx].
      rewrite Z.sub_0_r in *. apply Nb; auto. intros H. rewrite H in Hx. discriminate.
  - rewrite Up by congruence. auto.
  - destruct v_num0 as [v_num0 (own & O1 & O2 & O3)]. split; [lia|]. assert (Na : ~ In a own) by (intros I; destruct (O2 a I); congruence).
    exists (own_ins L (Z.to_nat j) own a). split; [now apply own_ins_nodup|]. split.
    + intros b Hb. apply own_ins_in in Hb. destruct (Z.eq_dec b a) as [->|Hne]; [rewrite UpA; auto|]. destruct Hb as [Hb|Hb]; [contradiction|]. rewrite Up by exact Hne. auto.
    + apply (owned_put_full L L' o a Of); [| |exact O3].
      * destruct Hj as [(_ & -> & ->)|(Hi & R & ->)]; [now left|]. right. split; [|reflexivity]. destruct (zget_in_range L j R) as [x Hx]. exists x. auto.
      * intros k x Hk Hx Fx E. destruct (v_op0 k x Hx Fx) as (b & B1 & B2 & B3 & _). rewrite E in B2. injection B2 as <-. pose proof (zget_Some_range _ _ _ Hx). destruct Hj as [(H1 & _)|(H1 & _)]; lia.
Qed.

Lemma same_fields p p' : shape p -> w_count p' = w_count p -> w_cap p' = w_cap p -> w_events p' = w_events p -> w_data p' = w_data p -> same p p'.
Proof.
  intros Sh C1 C2 C3 C4. split; [|split; [exact C1|split; [exact C2|split; [intros ev ev' H H'; congruence|]]]].
  - destruct Sh as (k & ev & H). exists k, ev. rewrite C2, C3, C4. exact H.
  - unfold slot, cel. rewrite C3, C4. auto.
Qed.
Lemma zset_snoc {A} (l : list A) x y : zset (l ++ [x]) (zlen l) y = l ++ [y].
Proof.
  unfold zset, zlen. destruct (Z.of_nat (length l) <? 0) eqn:E; [lia|]. rewrite Nat2Z.id. clear E. induction l; cbn; [reflexivity|]. now rewrite IHl.
Qed.
Lemma mask_add op x y ev : Z.ldiff (Z.lor op (Z.lor x ev)) (Z.land y (Z.lnot ev)) = Z.lor (Z.ldiff (Z.lor op x) y) ev.
Proof.
  apply Z.bits_inj'. intros n Hn. rewrite !Z.ldiff_spec, !Z.lor_spec, Z.ldiff_spec, Z.land_spec, Z.lnot_spec, Z.lor_spec by lia.
  destruct (Z.testbit op n), (Z.testbit x n), (Z.testbit y n), (Z.testbit ev n); reflexivity.
Qed.
Lemma mask_del op x y ev : Z.ldiff (Z.lor op (Z.land x (Z.lnot ev))) (Z.lor y ev) = Z.ldiff (Z.ldiff (Z.lor op x) y) ev.
Proof.
  apply Z.bits_inj'. intros n Hn. rewrite !Z.ldiff_spec, !Z.lor_spec, Z.land_spec, Z.lnot_spec by lia.
  destruct (Z.testbit op n), (Z.testbit x n), (Z.testbit y n), (Z.testbit ev n); reflexivity.
Qed.
Lemma small_lor x y : 0 <= x < 8 -> 0 <= y < 8 -> 0 <= Z.lor x y < 8.
Proof. intros H1 H2. pose proof (cases8' _ H1) as C1. pose proof (cases8' _ H2) as C2. decompose [or] C1; decompose [or] C2; subst; cbn; lia. Qed.
Lemma small_ldiff x y : 0 <= x < 8 -> 0 <= y < 8 -> 0 <= Z.ldiff x y < 8.
Proof. intros H1 H2. pose proof (cases8' _ H1) as C1. pose proof (cases8' _ H2) as C2. decompose [or] C1; decompose [or] C2; subst; cbn; lia. Qed.
Lemma small_landn x y : 0 <= x < 8 -> 0 <= y < 8 -> 0 <= Z.land x (Z.lnot y) < 8.
Proof. intros H1 H2. rewrite <- Z.ldiff_land. now apply small_ldiff. Qed.

(** What holds between the steps. *)
Definition queue_ok (A : abs) (p : wpoll) : Prop := zlen (w_ops p) <= a_subs A /\ zlen (w_ops p) <= w_opcap p /\
  (w_opnull p = true -> w_opcap p = 0) /\ (w_opnull p = false -> 16 <= w_opcap p <= 2 ^ 29) /\ (a_poll A = true -> 0 < a_subs A -> 0 < zlen (w_ops p)).
Definition good (ids : list Z) (dat fd0 : Z -> Z) (A : abs) (s : wst) : Prop :=
  inv ids dat fd0 (a_mask A) (w_ops (wp s)) 0 s /\ a_poll A = w_polling (wp s) /\ (a_poll A = false -> w_ops (wp s) = []) /\
  (forall a, In a ids -> mok (a_mask A a) /\ a_held A a = has (wf s a)) /\
  cntb (fun a => has (wf s a)) ids + cntb o_full (w_ops (wp s)) <= zlen ids /\ queue_ok A (wp s).

Lemma room_ok A p o : queue_ok A p -> a_subs A < 2 ^ 28 ->
  room p o = Ok None \/ exists p1, room p o = Ok (Some p1) /\ w_ops p1 = w_ops p /\ w_polling p1 = w_polling p /\ w_count p1 = w_count p /\ w_cap p1 = w_cap p /\ w_events p1 = w_events p /\ w_data p1 = w_data p /\
    zlen (w_ops p) + 1 <= w_opcap p1 /\ w_opnull p1 = false /\ 16 <= w_opcap p1 <= 2 ^ 29.
Proof.
  intros (Q1 & Q2 & Q3 & Q4 & _) Hs. change (2 ^ 28) with 268435456 in Hs. change (2 ^ 29) with 536870912 in *. unfold room, SIZE_MAX. destruct (zlen (w_ops p) =? w_opcap p) eqn:E.
  - destruct (w_opcap p >=? 2147483647) eqn:Eg; [now left|]. destruct (w_opnull p) eqn:En.
    + destruct (m_ops o); [|now left]. right. eexists. split; [reflexivity|]. cbn. specialize (Q3 eq_refl). pose proof (zlen_nonneg (w_ops p)). repeat split; lia.
    + specialize (Q4 eq_refl). destruct (2147483647 <? w_opcap p * 3) eqn:E3; [lia|]. destruct (m_ops o); [|now left]. right. eexists. split; [reflexivity|]. cbn [w_ops w_polling w_count w_cap w_events w_data w_opcap w_opnull].
      repeat split; try lia. all: Z.to_euclidean_division_equations; lia.
  - right. exists p. split; [reflexivity|]. pose proof (zlen_nonneg (w_ops p)). destruct (w_opnull p) eqn:En; [specialize (Q3 eq_refl); lia|]. specialize (Q4 eq_refl). repeat split; try lia.
Qed.

(** [lia] with the arithmetic hypotheses only. *)
Ltac zl := repeat match goal with H : ?T |- _ =>
  lazymatch type of T with Prop => lazymatch T with _ <= _ => fail | _ < _ => fail | @eq Z _ _ => fail | (_ =? _) = _ => fail | ~ (@eq Z _ _) => fail | _ <= _ < _ => fail | _ <= _ <= _ => fail | _ => clear H end end end; lia.
Definition target (add : bool) (m ev : Z) : Z := wsettle (if add then Z.lor m ev else Z.ldiff m ev).
Lemma submit_ok ids dat fd0 A s a ev o (add : bool) : good ids dat fd0 A s -> a_poll A = true -> In a ids -> 0 <= ev < 8 -> a_subs A < 2 ^ 28 -> m_wake o = true ->
  (target add (a_mask A a) ev = 0 -> a_held A a = true) ->
  exists s' rc, submit s a ev (dat a) add o = Ok (s', rc) /\ (rc = -1 /\ s' = s \/ rc = 0 /\ good ids dat fd0 (upd_mask A a (target add (a_mask A a) ev)) s').
Proof.
  intros (V & Pol & Emp & Ms & Num & Q) Hp Ha Hev Hs Hw Hz. pose proof (v_shape _ _ _ _ _ _ _ V) as v_shape0. pose proof (v_id _ _ _ _ _ _ _ V) as v_id0. pose proof (v_mask _ _ _ _ _ _ _ V) as v_mask0.
  pose proof (v_opi _ _ _ _ _ _ _ V) as v_opi0. pose proof (v_op _ _ _ _ _ _ _ V) as v_op0.
  assert (Ia : In a (WAKE :: ids)) by (now right). destruct (v_id0 a Ia) as [Mo Hold]. destruct (v_mask0 a Ha) as [MA MB]. destruct (Ms a Ha) as [Mok Held].
  unfold submit. set (t := wf s a) in *.
  (* once the operation at hand is known *)
  assert (Main : forall p1 L1 j op, w_ops p1 = L1 -> zget L1 j = Some op -> w_polling p1 = w_polling (wp s) -> w_count p1 = w_count (wp s) -> w_cap p1 = w_cap (wp s) -> w_events p1 = w_events (wp s) -> w_data p1 = w_data (wp s) ->
    w_opnull p1 = false -> 16 <= w_opcap p1 <= 2 ^ 29 -> zlen L1 <= w_opcap p1 -> zlen L1 <= a_subs A + 1 -> 0 < zlen L1 ->
    (forall op', f_opi t = -1 /\ j = zlen (w_ops (wp s)) /\ zset L1 j op' = w_ops (wp s) ++ [op'] \/ f_opi t = j /\ 0 <= j < zlen (w_ops (wp s)) /\ zset L1 j op' = zset (w_ops (wp s)) j op') ->
    0 <= o_add op < 8 -> 0 <= o_del op < 8 -> a_mask A a = Z.ldiff (Z.lor (f_op t) (o_add op)) (o_del op) ->
    forall wakeup, exists s' rc,
    (let* op := zload (w_ops p1) j in
    let add_ev := if add then Z.lor (o_add op) ev else Z.land (o_add op) (Z.lnot ev) in
    let del_ev := if add then Z.land (o_del op) (Z.lnot ev) else Z.lor (o_del op) ev in
    let full := Z.land (Z.lor (f_op t) add_ev) (Z.lnot (Z.lor del_ev SEDGE)) =? 0 in
    let op := if full then mk_wop true add_ev del_ev (o_fdt op) (f_pd t) (dat a)
              else mk_wop false add_ev del_ev (Some a) (o_pd op) (dat a) in
    let t := if full then mk_wfd (f_fd t) 0 None (-1) else mk_wfd (f_fd t) (f_op t) (f_pd t) j in
    let* ops := zput (w_ops p1) j op in
    Ok (mk_wst (set_ops p1 ops) (upf (wf s) a t), if wakeup && negb (m_wake o) then -1 else 0)) = Ok (s', rc) /\ (rc = -1 /\ s' = s \/ rc = 0 /\ good ids dat fd0 (upd_mask A a (target add (a_mask A a) ev)) s')).
  { intros p1 L1 j op EL Gj Pp Pc Pcap Pev Pd Pn Pb Pl Ps P0 Hj Oa Od Om wakeup. rewrite EL. rewrite (zload_ok _ _ _ Gj). cbn [bind]. cbv zeta.
    set (x := if add then Z.lor (o_add op) ev else Z.land (o_add op) (Z.lnot ev)). set (y := if add then Z.land (o_del op) (Z.lnot ev) else Z.lor (o_del op) ev).
    assert (Hx : 0 <= x < 8) by (unfold x; destruct add; [now apply small_lor|now apply small_landn]).
    assert (Hy : 0 <= y < 8) by (unfold y; destruct add; [now apply small_landn|now apply small_lor]).
    assert (Hm : Z.ldiff (Z.lor (f_op t) x) y = (if add then Z.lor (a_mask A a) ev else Z.ldiff (a_mask A a) ev)).
    { rewrite Om. unfold x, y. destruct add; [apply mask_add|apply mask_del]. }
    set (tg := Z.ldiff (Z.lor (f_op t) x) y) in *.
    assert (Htg : 0 <= tg < 8) by (apply small_ldiff; [apply small_lor; [apply Mo|exact Hx]|exact Hy]).
    assert (Hfull : Z.land (Z.lor (f_op t) x) (Z.lnot (Z.lor y SEDGE)) = Z.ldiff tg 4).
    { unfold tg. rewrite <- Z.ldiff_land. change SEDGE with 4. apply Z.bits_inj'. intros n Hn. rewrite !Z.ldiff_spec, !Z.lor_spec, negb_orb, andb_assoc. reflexivity. }
    rewrite Hfull. assert (Ht : target add (a_mask A a) ev = wsettle tg) by (unfold target; now rewrite Hm).
    assert (Gr : 0 <= j < zlen L1) by (eapply zget_Some_range; eauto).
    assert (Hrc : (if wakeup && negb (m_wake o) then -1 else 0) = 0) by (rewrite Hw; destruct wakeup; reflexivity). rewrite Hrc.
    assert (Oth : forall b, In b ids -> b <> a -> a_mask (upd_mask A a (target add (a_mask A a) ev)) b = a_mask A b).
    { intros b _ Hne. cbn. rewrite (proj2 (Z.eqb_neq b a) Hne); reflexivity. }
    assert (Slf : a_mask (upd_mask A a (target add (a_mask A a) ev)) a = wsettle tg) by (cbn; rewrite Z.eqb_refl; exact Ht).
    assert (Cf : (Z.ldiff tg 4 =? 0) = true /\ wsettle tg = 0 \/ (Z.ldiff tg 4 =? 0) = false /\ wsettle tg = tg /\ Z.land tg 3 <> 0 /\ mok tg).
    { clear - Htg. unfold mok. pose proof (cases8' _ Htg) as C. decompose [or] C; match goal with H : tg = _ |- _ => rewrite H end; cbn; zl. }
    assert (Qk : forall L2, zlen L2 = zlen L1 -> queue_ok (upd_mask A a (target add (a_mask A a) ev)) (set_ops p1 L2)).
    { intros L2 E2. unfold queue_ok. cbn. rewrite E2, Pn. split; [zl|]. split; [zl|]. split; [discriminate|]. split; [auto|]. intros; zl. }
    assert (Sm : forall L2, same (wp s) (set_ops p1 L2)) by (intros L2; apply same_fields; auto).
    destruct Cf as [[-> Tz]|(-> & Tz & T3 & Tm)].
    - set (op' := mk_wop true x y (o_fdt op) (f_pd t) (dat a)). rewrite zput_ok by exact Gr. cbn [bind]. eexists _, 0. split; [reflexivity|]. right. split; [reflexivity|].
      destruct (inv_put_full ids dat fd0 (a_mask A) (a_mask (upd_mask A a (target add (a_mask A a) ev))) (w_ops (wp s)) (zset L1 j op') s a j op') as [I1 I2]; auto.
      { now rewrite Slf. }
      { fold t. rewrite <- Held. apply Hz. now rewrite Ht. }
      fold t in I1, I2. split; [apply (inv_same _ _ _ _ _ _ (mk_wst (wp s) (upf (wf s) a (mk_wfd (f_fd t) 0 None (-1)))) (set_ops p1 (zset L1 j op')) I1); apply Sm|]. cbn [wp wf w_polling w_ops set_ops].
      split; [cbn; congruence|]. split; [cbn; intros; congruence|]. split; [|split; [exact I2|apply Qk; apply zlen_zset]].
      intros b Hb. destruct (Z.eq_dec b a) as [->|Hne]; [rewrite Slf, Tz; split; [split; [split; [apply Z.le_refl|reflexivity]|discriminate]|]; cbn; rewrite Z.eqb_refl, Ht, Tz; cbn; unfold upf; rewrite Z.eqb_refl; reflexivity|].
      rewrite Oth by assumption. split; [apply Ms; exact Hb|]. cbn. unfold upf. rewrite (proj2 (Z.eqb_neq b a) Hne). apply Ms. exact Hb.
    - set (op' := mk_wop false x y (Some a) (o_pd op) (dat a)). rewrite zput_ok by exact Gr. cbn [bind]. eexists _, 0. split; [reflexivity|]. right. split; [reflexivity|].
      assert (I1 : inv ids dat fd0 (a_mask (upd_mask A a (target add (a_mask A a) ev))) (zset L1 j op') 0 (mk_wst (wp s) (upf (wf s) a (mk_wfd (f_fd t) (f_op t) (f_pd t) j)))).
      { apply (inv_put ids dat fd0 (a_mask A) _ (w_ops (wp s)) (zset L1 j op') s a j op'); auto.
        - rewrite Slf, Tz. reflexivity.
        - rewrite Slf, Tz. exact T3. }
      split; [apply (inv_same _ _ _ _ _ _ (mk_wst (wp s) (upf (wf s) a (mk_wfd (f_fd t) (f_op t) (f_pd t) j))) (set_ops p1 (zset L1 j op')) I1); apply Sm|]. cbn [wp wf w_polling w_ops set_ops].
      assert (Hh : forall b, has (upf (wf s) a (mk_wfd (f_fd t) (f_op t) (f_pd t) j) b) = has (wf s b)). { intros b. unfold upf. destruct (b =? a) eqn:E; [|reflexivity]. apply Z.eqb_eq in E. subst b. reflexivity. }
      split; [cbn; congruence|]. split; [cbn; intros; congruence|]. split; [|split; [|apply Qk; apply zlen_zset]].
      + intros b Hb. rewrite Hh. destruct (Z.eq_dec b a) as [->|Hne]; [rewrite Slf, Tz; split; [exact Tm|]; cbn; rewrite Z.eqb_refl, Ht, Tz, Hp, Held; destruct (tg =? 0) eqn:E; [|reflexivity]; apply Z.eqb_eq in E; rewrite E in T3; cbn in T3; congruence|].
        rewrite Oth by assumption. split; [apply Ms; exact Hb|]. cbn. rewrite (proj2 (Z.eqb_neq b a) Hne). apply Ms. exact Hb.
      + rewrite (cntb_ext _ (fun b => has (wf s b))) by (intros; apply Hh). destruct (Hj op') as [(H1 & H2 & H3)|(H1 & H2 & H3)]; rewrite H3.
        * rewrite cntb_snoc. cbn. zl.
        * destruct (zget_in_range (w_ops (wp s)) j H2) as [z Hz']. rewrite (cntb_zset _ _ _ _ _ Hz'). cbn. destruct (o_full z); zl. }
  destruct Q as (Q1 & Q2 & Q3 & Q4 & Q5). destruct (f_opi t =? -1) eqn:Eo.
  - destruct (room_ok A (wp s) o) as [R|(p1 & R & R1 & R2 & R3 & R4 & R5 & R6 & R7 & R8 & R9)]; [unfold queue_ok; auto|exact Hs| |]; rewrite R; cbn [bind].
    + eexists _, _. split; [reflexivity|]. left. auto.
    + apply (Main (set_ops p1 (w_ops p1 ++ [mk_wop false 0 0 None None 0])) (w_ops (wp s) ++ [mk_wop false 0 0 None None 0]) (zlen (w_ops (wp s))) (mk_wop false 0 0 None None 0)); cbn [w_ops w_polling w_count w_cap w_events w_data w_opcap w_opnull set_ops o_add o_del]; auto; try zl.
      * now rewrite R1.
      * rewrite zget_app2 by zl. rewrite Z.sub_diag. reflexivity.
      * rewrite zlen_app, zlen_cons, zlen_nil. zl.
      * rewrite zlen_app, zlen_cons, zlen_nil. zl.
      * rewrite zlen_app, zlen_cons, zlen_nil. pose proof (zlen_nonneg (w_ops (wp s))). zl.
      * intros op'. left. split; [zl|]. split; [reflexivity|]. apply zset_snoc.
      * rewrite Z.lor_0_r, Z.ldiff_0_r. apply MA. zl.
  - cbn [bind]. destruct (v_opi0 a Ha) as [H|(op & O1 & O2 & O3)]; [fold t in H; zl|]. fold t in O1. rewrite Z.sub_0_r in O1. pose proof (zget_Some_range _ _ _ O1) as Ro.
    destruct (v_op0 _ _ O1 O2) as (b & _ & B2 & _ & _ & B5 & B6).
    destruct (w_opnull (wp s)) eqn:En; [specialize (Q3 eq_refl); zl|].
    apply (Main (wp s) (w_ops (wp s)) (f_opi t) op); auto; try zl.
    apply MB. fold t. rewrite Z.sub_0_r. exact O1.
Qed.
