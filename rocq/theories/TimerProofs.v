(** Proofs about the timer model. *)
From Verif Require Import Base Num TimerModel TimerSpec.
From Coq Require Import ZifyBool.

(** ** Ids and slots *)
Definition id_of (p s : Z) : Z := s * 2^32 + p.
Lemma id_lor p s : 0 <= p < 16 -> 0 <= s -> Z.lor (Z.shiftl s 32) p = id_of p s.
Proof. intros. unfold id_of. apply lor_add; lia. Qed.
Definition idp (id : Z) : Z := id mod 2^32.
Definition ids_ (id : Z) : Z := id / 2^32.
Lemma idp_of p s : 0 <= p < 16 -> idp (id_of p s) = p.
Proof. intros. unfold idp, id_of. rewrite Z.add_comm, Z.mod_add by lia. apply Z.mod_small. lia. Qed.
Lemma ids_of p s : 0 <= p < 16 -> ids_ (id_of p s) = s.
Proof. intros. unfold ids_, id_of. rewrite Z.add_comm, Z.div_add by lia. rewrite Z.div_small; lia. Qed.
Lemma of_id id : id_of (idp id) (ids_ id) = id.
Proof. unfold id_of, idp, ids_. pose proof (Z.div_mod id (2^32)). lia. Qed.

(** The slot an id denotes, if it is in use. *)
Definition valid_id (t : timer) (id : Z) : Prop := 0 <= idp id < 16 /\ 0 <= ids_ id < wheel t.
Definition at_id (t : timer) (id : Z) : option slot := zget (slots t) (idp id * wheel t + ids_ id).
Definition look (t : timer) (id : Z) : option slot :=
  if (0 <=? idp id) && (idp id <? 16) && (0 <=? ids_ id) && (ids_ id <? wheel t) then
    match at_id t id with
    | Some (to, ty, d) => if to =? INVALID then None else Some (to, ty, d)
    | None => None
    end
  else None.
Lemma look_valid t id r : look t id = Some r -> valid_id t id.
Proof. unfold look, valid_id. destruct (_ && _) eqn:E; [lia|discriminate]. Qed.
Lemma look_at t id : valid_id t id ->
  look t id = match at_id t id with Some (to, ty, d) => if to =? INVALID then None else Some (to, ty, d) | None => None end.
Proof.
  unfold look, valid_id. intro H.
  now replace ((0 <=? idp id) && (idp id <? 16) && (0 <=? ids_ id) && (ids_ id <? wheel t)) with true by lia.
Qed.

Lemma valid_ne t id : valid_id t id -> id <> INVALID.
Proof. intros [H _] ->. unfold idp, INVALID in H. change ((2^64-1) mod 2^32) with (2^32-1) in H. lia. Qed.

(** The shape of a timer. *)
Record shape (t : timer) : Prop := mk_shape {
  sh_ts : 0 <= ts t < INVALID; sh_head : 0 <= head t < 16; sh_wheel : 0 <= wheel t <= 11184810;
  sh_len : zlen (slots t) = wheel t * 32 }.

Lemma idx_range t id : shape t -> valid_id t id -> 0 <= idp id * wheel t + ids_ id < wheel t * 16.
Proof. intros [] [H1 H2]. nia. Qed.
Lemma idx_inj t id id' : valid_id t id -> valid_id t id' ->
  idp id * wheel t + ids_ id = idp id' * wheel t + ids_ id' -> id = id'.
Proof.
  intros [H1 H2] [H3 H4] H. assert (idp id = idp id') by nia. assert (ids_ id = ids_ id') by nia.
  rewrite <- (of_id id), <- (of_id id'). congruence.
Qed.
Lemma at_id_some t id : shape t -> valid_id t id -> exists r, at_id t id = Some r.
Proof.
  intros S V. pose proof (idx_range t id S V). unfold at_id. apply zget_in_range. destruct S. lia.
Qed.

(** Storing into one slot. *)
Definition upd (t : timer) (id : Z) (r : slot) : timer :=
  mk_timer (ts t) (head t) (wheel t) (zset (slots t) (idp id * wheel t + ids_ id) r).
Lemma upd_shape t id r : shape t -> shape (upd t id r).
Proof. intros []. constructor; cbn [upd ts head wheel slots]; auto. now rewrite zlen_zset. Qed.
Lemma upd_valid t id r id' : valid_id (upd t id r) id' <-> valid_id t id'.
Proof. reflexivity. Qed.
Lemma look_upd t id to ty d id' : shape t -> valid_id t id ->
  look (upd t id (to, ty, d)) id' = if id' =? id then (if to =? INVALID then None else Some (to, ty, d)) else look t id'.
Proof.
  intros S V. pose proof (idx_range t id S V) as Hr.
  destruct (Z.eqb_spec id' id) as [->|Hne].
  - rewrite look_at by exact V. unfold at_id. cbn [upd slots wheel]. rewrite zget_zset_eq; [reflexivity|].
    destruct S. lia.
  - unfold look. cbn [upd wheel]. destruct (_ && _) eqn:E; [|reflexivity].
    assert (V' : valid_id t id') by (unfold valid_id; lia).
    unfold at_id. cbn [upd slots wheel]. rewrite zget_zset_neq; [reflexivity|].
    intro H. apply Hne. symmetry. eapply idx_inj; eauto.
Qed.

(** ** The pending set *)
Record inv (t : timer) (p : pending) : Prop := mk_inv {
  i_shape : shape t; i_nodup : NoDup (map fst p);
  i_in : forall id dl ty d, In (id, (dl, ty, d)) p -> look t id = Some (u64 dl, ty, d) /\ 0 <= dl /\ dl <> INVALID;
  i_look : forall id, look t id <> None -> In id (map fst p) }.
Lemma in_fst (id : Z) (p : pending) : In id (map fst p) <-> exists dl ty d, In (id, (dl, ty, d)) p.
Proof.
  rewrite in_map_iff. split; [intros ([i [[dl ty] d]] & <- & H); cbn; eauto|].
  intros (dl & ty & d & H). eexists. split; [|exact H]. reflexivity.
Qed.

Lemma in_remove id id' (r : Z * Z * Z) p : In (id', r) (remove_id id p) <-> In (id', r) p /\ id' <> id.
Proof. unfold remove_id. rewrite filter_In. cbn. split; intros [H1 H2]; split; auto; lia. Qed.
Lemma remove_nodup id p : NoDup (map fst p) -> NoDup (map fst (remove_id id p)).
Proof.
  unfold remove_id. induction p as [|[i r] p IH]; cbn; intro H; [constructor|].
  inversion H as [|? ? Hn Hd]; subst. destruct (negb (i =? id)); cbn; [|auto].
  constructor; [|auto]. intro Hi. apply Hn. apply in_map_iff in Hi as ([i' r'] & He & Hi). cbn in He. subst.
  apply filter_In in Hi as [Hi _]. apply in_map_iff. exists (i, r'). auto.
Qed.
Lemma inv_remove t p id to ty d : inv t p -> valid_id t id -> to = INVALID -> inv (upd t id (to, ty, d)) (remove_id id p).
Proof.
  intros [S N A L] V ->. constructor.
  - now apply upd_shape.
  - now apply remove_nodup.
  - intros id' dl ty' d' H. apply in_remove in H as [H Hne]. rewrite look_upd by assumption.
    destruct (Z.eqb_spec id' id); [contradiction|]. now apply A.
  - intros id'. rewrite look_upd by assumption. rewrite Z.eqb_refl. destruct (Z.eqb_spec id' id) as [->|Hne]; [congruence|].
    intro H. apply L, in_fst in H as (dl & ty' & d' & H). apply in_fst. exists dl, ty', d'. apply in_remove. auto.
Qed.
Lemma look_none t p id : inv t p -> look t id = None -> ~ In id (map fst p).
Proof. intros [S N A L] Hn Hi. apply in_fst in Hi as (dl & ty & d & Hi). apply A in Hi as [Hi _]. congruence. Qed.
Lemma inv_add t p id dl ty d : inv t p -> valid_id t id -> look t id = None -> 0 <= dl < 2^65 - 1 ->
  inv (upd t id (u64 dl, ty, d)) (if dl =? INVALID then p else (id, (dl, ty, d)) :: p) /\ ~ In id (map fst p).
Proof.
  intros I V Hn Hd. pose proof (look_none t p id I Hn) as Hni. destruct I as [S N A L].
  split; [|exact Hni].
  assert (Hu : (u64 dl =? INVALID) = (dl =? INVALID)).
  { unfold u64, INVALID. pose proof (Z.div_mod dl (2^64)). pose proof (Z.mod_pos_bound dl (2^64)).
    assert (dl / 2^64 = 0 \/ dl / 2^64 = 1) by (assert (0 <= dl / 2^64 < 2); [|lia]; split; [apply Z.div_pos; lia|apply Z.div_lt_upper_bound; lia]).
    lia. }
  constructor.
  - now apply upd_shape.
  - destruct (dl =? INVALID); [exact N|]. cbn. now constructor.
  - intros id' dl' ty' d' H. rewrite look_upd by assumption. rewrite Hu.
    destruct (Z.eqb_spec dl INVALID) as [E|E].
    + destruct (Z.eqb_spec id' id) as [->|]; [|now apply A]. exfalso. apply Hni, in_fst. eauto.
    + destruct H as [[= <- <- <- <-]|H]; [rewrite Z.eqb_refl; split; [reflexivity|split; [lia|exact E]]|].
      destruct (Z.eqb_spec id' id) as [->|]; [|now apply A]. exfalso. apply Hni, in_fst. eauto.
  - intros id'. rewrite look_upd by assumption. rewrite Hu.
    destruct (Z.eqb_spec dl INVALID) as [E|E].
    + destruct (Z.eqb_spec id' id) as [->|]; [congruence|apply L].
    + cbn [map fst In]. destruct (Z.eqb_spec id' id) as [->|]; [auto|]. intro H. right. now apply L.
Qed.

(** ** expand *)
Lemma blit_ok l pos xs : 0 <= pos -> pos + zlen xs <= zlen l ->
  exists l', blit l pos xs = Ok l' /\ zlen l' = zlen l /\
    (forall i, zget l' i = if (pos <=? i) && (i <? pos + zlen xs) then zget xs (i - pos) else zget l i).
Proof.
  intros Hp Hl. unfold blit. pose proof (zlen_nonneg xs) as Hb.
  replace ((0 <=? pos) && (pos + zlen xs <=? zlen l)) with true by lia.
  eexists. split; [reflexivity|]. split.
  - rewrite !zlen_app, zlen_firstn, zlen_skipn. lia.
  - intro i. rewrite zget_app, zlen_firstn, zget_firstn, zget_app.
    destruct (Z.ltb_spec i (Z.min (Z.of_nat (Z.to_nat pos)) (zlen l))).
    + replace (i <? Z.of_nat (Z.to_nat pos)) with true by lia.
      now replace ((pos <=? i) && (i <? pos + zlen xs)) with false by lia.
    + replace (Z.min (Z.of_nat (Z.to_nat pos)) (zlen l)) with pos by lia.
      destruct (Z.ltb_spec (i - pos) (zlen xs)).
      * now replace ((pos <=? i) && (i <? pos + zlen xs)) with true by lia.
      * replace ((pos <=? i) && (i <? pos + zlen xs)) with false by lia.
        rewrite zget_skipn by lia. f_equal. lia.
Qed.

Lemma copy_ok w old : forall n i new, 0 < w < 2^24 -> 0 <= i -> i + Z.of_nat n = 16 ->
  zlen old = w * 32 -> zlen new = 2 * w * 32 ->
  exists new', copy_wheels n i w old new = Ok new' /\ zlen new' = zlen new /\
    (forall p s, 0 <= p < 16 -> 0 <= s < 2 * w ->
       zget new' (p * (2 * w) + s) = if (i <=? p) && (s <? w) then zget old (p * w + s) else zget new (p * (2 * w) + s)).
Proof.
  induction n as [|n IH]; intros i new Hw Hi Hn Ho Hnew; cbn [copy_wheels].
  - exists new. split; [reflexivity|]. split; [reflexivity|]. intros p s Hp Hs.
    now replace (i <=? p) with false by lia.
  - assert (Hiw : 0 <= i * w <= 15 * w) by nia.
    rewrite (u32_small (i * w)) by lia. rewrite (u32_small (i * w * 2)) by lia.
    replace (i * w + w <=? zlen old) with true by lia.
    assert (Hsl : zlen (zslice old (i * w) w) = w) by (apply zlen_zslice; lia).
    destruct (blit_ok new (i * w * 2) (zslice old (i * w) w)) as (new1 & -> & Hl1 & Hg1); [lia|lia|].
    cbn [bind]. destruct (IH (i + 1) new1) as (new' & -> & Hl & Hg); [lia|lia|lia|exact Ho|lia|].
    exists new'. split; [reflexivity|]. split; [lia|]. intros p s Hp Hs. rewrite Hg by assumption.
    rewrite Hg1, Hsl.
    destruct (Z.lt_trichotomy p i) as [Hlt|[->|Hgt]].
    + replace (i + 1 <=? p) with false by lia. replace (i <=? p) with false by lia. cbn [andb].
      replace ((i * w * 2 <=? p * (2 * w) + s) && (p * (2 * w) + s <? i * w * 2 + w)) with false by nia. reflexivity.
    + replace (i + 1 <=? i) with false by lia. rewrite Z.leb_refl. cbn [andb].
      replace ((i * w * 2 <=? i * (2 * w) + s) && (i * (2 * w) + s <? i * w * 2 + w)) with (s <? w) by lia.
      destruct (Z.ltb_spec s w); [|reflexivity]. rewrite zget_zslice by lia.
      replace ((0 <=? i * (2 * w) + s - i * w * 2) && (i * (2 * w) + s - i * w * 2 <? w)) with true by lia.
      f_equal. lia.
    + replace (i + 1 <=? p) with true by lia. replace (i <=? p) with true by lia. cbn [andb].
      destruct (s <? w); [reflexivity|].
      replace ((i * w * 2 <=? p * (2 * w) + s) && (p * (2 * w) + s <? i * w * 2 + w)) with false by nia. reflexivity.
Qed.

Lemma expand_ok t ok : shape t ->
  (timer_expand t ok = Ok (t, false) /\ (ok = false \/ 5592405 <= wheel t)) \/
  (exists t', timer_expand t ok = Ok (t', true) /\ shape t' /\ ts t' = ts t /\ head t' = head t /\ wheel t < wheel t' /\
     (forall id, look t' id = look t id) /\
     (forall id, valid_id t' id -> wheel t <= ids_ id -> exists ty d, at_id t' id = Some (INVALID, ty, d))).
Proof.
  intros S. pose proof S as [Hts Hh Hw Hl]. unfold timer_expand.
  change (TIMER_MAX / 2) with 5592405. unfold WHEELS.
  destruct (Z.eqb_spec (wheel t) 0) as [Hz|Hz].
  - cbn [negb]. rewrite (u32_small (4 * 16)) by lia. rewrite (u32_small (4 * 16 * 2)) by lia.
    change (4 * 16 * 2 =? 0) with false. replace (5592405 <=? wheel t) with false by lia.
    destruct ok; [right|left; split; [reflexivity|auto]]. cbn [negb bind]. eexists. split; [reflexivity|].
    assert (Hg : forall i, 0 <= i < 128 -> zget (repeat free_slot (Z.to_nat (4 * 16 * 2))) i = Some free_slot).
    { intros i Hi. rewrite zget_repeat. now replace ((0 <=? i) && (i <? Z.of_nat (Z.to_nat (4 * 16 * 2)))) with true by lia. }
    split; [constructor; cbn [ts head wheel slots]; auto; try lia; rewrite zlen_repeat; lia|].
    cbn [ts head wheel slots]. split; [reflexivity|]. split; [reflexivity|]. split; [lia|]. split.
    + intro id. unfold look at 2. rewrite Hz. replace (ids_ id <? 0) with (negb (0 <=? ids_ id)) by lia.
      replace ((0 <=? idp id) && (idp id <? 16) && (0 <=? ids_ id) && negb (0 <=? ids_ id)) with false by lia.
      unfold look, at_id. cbn [slots wheel]. destruct (_ && _) eqn:E; [|reflexivity]. rewrite Hg by lia. reflexivity.
    + intros id [V1 V2] _. cbn [wheel] in V2. unfold at_id. cbn [slots wheel]. rewrite Hg by lia. eexists _, _. reflexivity.
  - destruct (Z.leb_spec 5592405 (wheel t)) as [Hbig|Hsmall].
    { left. split; [|auto]. match goal with |- (if ?c =? 0 then _ else _) = _ => assert (c <> 0) end.
      { rewrite (u32_small (wheel t * 2)), (u32_small (wheel t * 2 * 16)), (u32_small (wheel t * 2 * 16 * 2)); lia. }
      match goal with |- (if ?c =? 0 then _ else _) = _ => destruct (Z.eqb_spec c 0); [contradiction|reflexivity] end. }
    rewrite (u32_small (wheel t * 2)), (u32_small (wheel t * 2 * 16)), (u32_small (wheel t * 2 * 16 * 2)) by lia.
    replace (wheel t * 2 * 16 * 2 =? 0) with false by lia.
    destruct ok; [right|left; split; [reflexivity|auto]]. cbn [negb bind].
    set (new := repeat free_slot (Z.to_nat (wheel t * 2 * 16 * 2))).
    assert (Hnl : zlen new = 2 * wheel t * 32) by (unfold new; rewrite zlen_repeat; lia).
    destruct (copy_ok (wheel t) (slots t) 16 0 new) as (new' & -> & Hl' & Hg'); try lia.
    cbn [bind]. eexists. split; [reflexivity|].
    assert (Hfree : forall i, 0 <= i < 2 * wheel t * 32 -> zget new i = Some free_slot).
    { intros i Hi. unfold new. rewrite zget_repeat.
      now replace ((0 <=? i) && (i <? Z.of_nat (Z.to_nat (wheel t * 2 * 16 * 2)))) with true by lia. }
    split; [constructor; cbn [ts head wheel slots]; auto; lia|].
    cbn [ts head wheel slots]. split; [reflexivity|]. split; [reflexivity|]. split; [lia|]. split.
    + intro id. unfold look, at_id. cbn [slots wheel]. replace (wheel t * 2) with (2 * wheel t) by lia.
      destruct ((0 <=? idp id) && (idp id <? 16) && (0 <=? ids_ id) && (ids_ id <? 2 * wheel t)) eqn:E.
      * rewrite Hg' by lia. replace (0 <=? idp id) with true by lia. replace (idp id <? 16) with true by lia.
        replace (0 <=? ids_ id) with true by lia. cbn [andb].
        destruct (Z.ltb_spec (ids_ id) (wheel t)); [reflexivity|].
        rewrite Hfree by nia. reflexivity.
      * replace ((0 <=? idp id) && (idp id <? 16) && (0 <=? ids_ id) && (ids_ id <? wheel t)) with false by lia. reflexivity.
    + intros id [V1 V2] Hge. cbn [wheel] in V2. unfold at_id. cbn [slots wheel]. replace (wheel t * 2) with (2 * wheel t) by lia.
      rewrite Hg' by lia. replace (ids_ id <? wheel t) with false by lia. rewrite andb_false_r.
      rewrite Hfree by nia. eexists _, _. reflexivity.
Qed.

(** ** add *)
Lemma find_free_ok t p : shape t -> 0 <= p < 16 -> forall n seq, 0 <= seq -> seq + Z.of_nat n = wheel t ->
  exists s, find_free (slots t) (p * wheel t) n seq = Ok s /\ seq <= s <= wheel t /\
    (s < wheel t -> exists ty d, at_id t (id_of p s) = Some (INVALID, ty, d)) /\
    (forall s', seq <= s' < s -> look t (id_of p s') <> None).
Proof.
  intros S Hp. induction n as [|n IH]; intros seq Hs Hn; cbn [find_free].
  - exists seq. split; [reflexivity|]. split; [lia|]. split; [lia|]. intros. lia.
  - assert (V : valid_id t (id_of p seq)) by (split; [rewrite idp_of|rewrite ids_of]; lia).
    destruct (at_id_some t _ S V) as ([[to ty] d] & Ha).
    assert (Hl : zload (slots t) (p * wheel t + seq) = Ok (to, ty, d)).
    { apply zload_ok. unfold at_id in Ha. now rewrite idp_of, ids_of in Ha by lia. }
    rewrite Hl. cbn [bind]. destruct (Z.eqb_spec to INVALID) as [->|].
    + exists seq. split; [reflexivity|]. split; [lia|]. split; [eauto|]. intros. lia.
    + destruct (IH (seq + 1)) as (s & H1 & H2 & H3 & H4); [lia|lia|]. exists s. split; [exact H1|]. split; [lia|]. split; [exact H3|].
      intros s' Hs'. destruct (Z.eq_dec s' seq) as [->|]; [|apply H4; lia].
      rewrite look_at, Ha by exact V. destruct (Z.eqb_spec to INVALID); [contradiction|discriminate].
Qed.

(** A wheel without free slots has as many pending timers as slots. *)
Lemma full_wheel t l p : inv t l -> 0 <= p < 16 -> (forall s, 0 <= s < wheel t -> look t (id_of p s) <> None) ->
  wheel t <= zlen l.
Proof.
  intros [S N A L] Hp H. set (ids := map (fun k => id_of p (Z.of_nat k)) (seq 0 (Z.to_nat (wheel t)))).
  assert (Hn : NoDup ids).
  { apply FinFun.Injective_map_NoDup; [|apply seq_NoDup]. intros a b Hab. apply (f_equal ids_) in Hab.
    rewrite !ids_of in Hab by lia. lia. }
  assert (Hi : incl ids (map fst l)).
  { intros id Hid. apply in_map_iff in Hid as (k & <- & Hk). apply in_seq in Hk.
    apply L, H. lia. }
  pose proof (NoDup_incl_length Hn Hi) as Hle. unfold ids in Hle. rewrite !map_length, seq_length in Hle.
  destruct S. unfold zlen. lia.
Qed.

Lemma land15 x : 0 <= x -> Z.land x 15 = x mod 16.
Proof. intro H. change 15 with (Z.ones 4). now rewrite Z.land_ones by lia. Qed.

Lemma add_ok t p timeout ty d ok : inv t p -> 0 <= timeout < 2^64 ->
  (timer_add t timeout ty d ok = Ok (t, INVALID) /\ (ok = false \/ 5592405 <= zlen p)) \/
  (exists t' s, let id := id_of ((timeout / 16 + head t) mod 16) s in
    timer_add t timeout ty d ok = Ok (t', id) /\ valid_id t' id /\ ~ In id (map fst p) /\
    inv t' (if ts t + timeout =? INVALID then p else (id, (ts t + timeout, ty, d)) :: p) /\
    ts t' = ts t /\ head t' = head t /\ wheel t <= wheel t').
Proof.
  intros I Ht. pose proof (i_shape _ _ I) as S. pose proof S as [Hts Hh Hw Hl]. unfold timer_add, TICK, WHEELS.
  change (16 - 1) with 15. rewrite land15 by (apply u32_range).
  set (pos := (timeout / 16 + head t) mod 16).
  assert (Hpos : u32 (timeout / 16 + head t) mod 16 = pos).
  { unfold u32, pos. rewrite <- Znumtheory.Zmod_div_mod; [reflexivity|lia|lia|]. exists (2^28). reflexivity. }
  rewrite Hpos. assert (Hp : 0 <= pos < 16) by (apply Z.mod_pos_bound; lia).
  assert (Hpw : forall t', shape t' -> u32 (pos * wheel t') = pos * wheel t').
  { intros t' []. apply u32_small. nia. }
  assert (Hpws : forall t' s, shape t' -> 0 <= s < wheel t' -> u32 (pos * wheel t' + s) = pos * wheel t' + s).
  { intros t' s [] Hs. apply u32_small. nia. }
  assert (Hu : timeout + ts t = ts t + timeout) by lia.
  assert (Put : forall t1 s, inv t1 p -> ts t1 = ts t -> head t1 = head t -> wheel t <= wheel t1 -> 0 <= s < wheel t1 ->
    (exists ty d, at_id t1 (id_of pos s) = Some (INVALID, ty, d)) ->
    exists t', (let* l := zput (slots t1) (u32 (u32 (pos * wheel t1) + s)) (u64 (timeout + ts t1), ty, d) in
       if Z.lor (Z.shiftl s 32) pos =? INVALID then UB
       else Ok (mk_timer (ts t1) (head t1) (wheel t1) l, Z.lor (Z.shiftl s 32) pos)) = Ok (t', id_of pos s) /\
      valid_id t' (id_of pos s) /\ ~ In (id_of pos s) (map fst p) /\
      inv t' (if ts t + timeout =? INVALID then p else (id_of pos s, (ts t + timeout, ty, d)) :: p) /\
      ts t' = ts t /\ head t' = head t /\ wheel t <= wheel t').
  { intros t1 s I1 E1 E2 E3 Hs (ty' & d' & Ha). pose proof (i_shape _ _ I1) as S1.
    assert (V : valid_id t1 (id_of pos s)) by (split; [rewrite idp_of|rewrite ids_of]; lia).
    rewrite Hpw, Hpws by assumption. rewrite id_lor by lia.
    pose proof (idx_range t1 _ S1 V) as Hr. rewrite idp_of, ids_of in Hr by lia. pose proof (sh_len _ S1) as Hlen.
    rewrite zput_ok by lia. cbn [bind].
    destruct (Z.eqb_spec (id_of pos s) INVALID) as [He|_]; [now apply (valid_ne _ _ V) in He|].
    rewrite E1, Hu.
    destruct (inv_add t1 p (id_of pos s) (ts t + timeout) ty d I1 V) as [I2 N2].
    { rewrite look_at, Ha by exact V. reflexivity. }
    { unfold INVALID in Hts. lia. }
    exists (upd t1 (id_of pos s) (u64 (ts t + timeout), ty, d)).
    split; [unfold upd; rewrite E1, idp_of, ids_of by lia; reflexivity|].
    split; [exact V|]. split; [exact N2|]. split; [exact I2|]. cbn [upd ts head wheel]. auto. }
  rewrite Hpw by exact S.
  destruct (find_free_ok t pos S Hp (Z.to_nat (wheel t)) 0) as (s & -> & Hs & Hf & Hfull); [lia|lia|]. cbn [bind].
  destruct (Z.ltb_spec s (wheel t)) as [Hlt|Hge].
  - right. destruct (Put t s I eq_refl eq_refl) as (t' & H); [lia|lia|auto|]. rewrite Hpw in H by exact S.
    exists t', s. exact H.
  - destruct (expand_ok t ok S) as [[-> Hwhy]|(t1 & -> & S1 & E1 & E2 & E3 & L1 & F1)]; cbn [bind negb].
    { left. split; [reflexivity|]. destruct Hwhy as [Hwhy|Hwhy]; [auto|right].
      assert (wheel t <= zlen p); [|lia]. apply (full_wheel t p pos I Hp). intros s' Hs'. apply Hfull. lia. }
    assert (Hs1 : 0 <= s < wheel t1) by lia.
    assert (V : valid_id t1 (id_of pos s)) by (split; [rewrite idp_of|rewrite ids_of]; lia).
    destruct (F1 _ V) as (ty' & d' & Ha); [rewrite ids_of; lia|].
    assert (Hz : zload (slots t1) (u32 (u32 (pos * wheel t1) + s)) = Ok (INVALID, ty', d')).
    { rewrite Hpw, Hpws by assumption. apply zload_ok. unfold at_id in Ha. now rewrite idp_of, ids_of in Ha by lia. }
    rewrite Hz. cbn [bind]. rewrite Z.eqb_refl.
    assert (I1 : inv t1 p).
    { destruct I as [_ N A L]. constructor; auto.
      - intros id dl ty2 d2. rewrite L1. apply A.
      - intros id. rewrite L1. apply L. }
    right. destruct (Put t1 s I1 E1 E2) as (t' & H); [lia|lia|eauto|]. exists t', s. exact H.
Qed.

(** ** cancel *)
Lemma cancel_ok t p id : inv t p -> id = INVALID \/ valid_id t id ->
  exists t', timer_cancel t id = Ok (t', INVALID) /\ inv t' (remove_id id p) /\ ts t' = ts t /\ head t' = head t /\ wheel t' = wheel t.
Proof.
  intros I [->|V]; unfold timer_cancel.
  - rewrite Z.eqb_refl. exists t. split; [reflexivity|]. split; [|auto].
    destruct I as [S N A L]. constructor; auto; [now apply remove_nodup| |].
    + intros id dl ty d H. apply in_remove in H as [H _]. now apply A.
    + intros id H. pose proof (L id H) as H'. destruct (look t id) as [[[to ty] d]|] eqn:E; [|congruence].
      apply look_valid in E. apply valid_ne in E. clear H. rename H' into H. apply in_fst in H as (dl & ty' & d' & H). apply in_fst. exists dl, ty', d'. apply in_remove. auto.
  - pose proof (i_shape _ _ I) as S. destruct (Z.eqb_spec id INVALID) as [He|_]; [now apply (valid_ne _ _ V) in He|].
    pose proof (idx_range t id S V) as Hr. pose proof S as [Hts Hh Hw Hl]. pose proof V as [V1 V2].
    change (u32 id) with (idp id). rewrite Z.shiftr_div_pow2 by lia. change (id / 2^32) with (ids_ id).
    rewrite u32_small by nia.
    destruct (at_id_some t id S V) as ([[to ty] d] & Ha). unfold at_id in Ha.
    rewrite (zload_ok _ _ _ Ha). cbn [bind]. rewrite zput_ok by lia. cbn [bind].
    eexists. split; [reflexivity|]. split; [|cbn [ts head wheel]; auto].
    apply (inv_remove t p id INVALID ty d I V eq_refl).
Qed.

(** Cancelling an id with no pending timer. *)
Lemma cancel_unused t p id : inv t p -> id = INVALID \/ valid_id t id -> (forall r, ~ In (id, r) p) ->
  timer_cancel t id = Ok (t, INVALID).
Proof.
  intros I [->|V] Hp; unfold timer_cancel; [now rewrite Z.eqb_refl|].
  pose proof (i_shape _ _ I) as S. destruct (Z.eqb_spec id INVALID) as [He|_]; [now apply (valid_ne _ _ V) in He|].
  pose proof (idx_range t id S V) as Hr. pose proof S as [Hts Hh Hw Hl]. pose proof V as [V1 V2].
  change (u32 id) with (idp id). rewrite Z.shiftr_div_pow2 by lia. change (id / 2^32) with (ids_ id).
  rewrite u32_small by nia.
  destruct (at_id_some t id S V) as ([[to ty] d] & Ha).
  pose proof (look_at t id V) as L. rewrite Ha in L. destruct (Z.eqb_spec to INVALID) as [->|].
  2:{ assert (H : In id (map fst p)) by (apply (i_look _ _ I); congruence). apply in_fst in H as (? & ? & ? & H). now apply Hp in H. }
  unfold at_id in Ha. rewrite (zload_ok _ _ _ Ha). cbn [bind]. rewrite zput_ok by lia. cbn [bind].
  rewrite zset_same by exact Ha. now destruct t.
Qed.

(** ** Worlds *)
Record winv (oom : bool) (w : world) (p : pending) : Prop := mk_winv {
  wi : inv (wt w) p; w_ids : Forall (fun id => id = INVALID \/ valid_id (wt w) id) (ids w); w_script : script_ok oom (script w) }.

Lemma valid_mono t t' id : wheel t <= wheel t' -> valid_id t id -> valid_id t' id.
Proof. unfold valid_id. lia. Qed.
Lemma ids_mono t t' l : wheel t <= wheel t' ->
  Forall (fun id => id = INVALID \/ valid_id t id) l -> Forall (fun id => id = INVALID \/ valid_id t' id) l.
Proof. intros H. apply Forall_impl. intros id [->|V]; [auto|right; eapply valid_mono; eauto]. Qed.

(** A timer added when the timer's timestamp is [T] and its head [h]. *)
Definition fresh (T h : Z) (x : Z * (Z * Z * Z)) : Prop :=
  exists timeout ty d s, x = (id_of ((timeout / 16 + h) mod 16) s, (T + timeout, ty, d)) /\ 0 <= timeout < 2^64.

Lemma rules_app slack oom v1 v2 v3 a b : rules slack oom v1 a v2 -> rules slack oom v2 b v3 -> rules slack oom v1 (a ++ b) v3.
Proof. induction 1; intro H'; cbn; [exact H'|]. econstructor; eauto. Qed.
Lemma rules_one slack oom v1 e v2 : rule slack oom v1 e v2 -> rules slack oom v1 [e] v2.
Proof. intro H. econstructor; [exact H|constructor]. Qed.

(** The outcome of calls made while the timer's timestamp and head stay. *)
Definition outcome (oom : bool) (w : world) (p : pending) (r : res (world * list event)) (w' : world) (p' : pending) : Prop :=
  exists tr, r = Ok (w', tr) /\ winv oom w' p' /\
    ts (wt w') = ts (wt w) /\ head (wt w') = head (wt w) /\ wheel (wt w) <= wheel (wt w') /\
    (forall slack g, rules slack oom (mk_view (ts (wt w)) g p) tr (mk_view (ts (wt w)) g p')) /\
    (forall x, In x p' -> In x p \/ fresh (ts (wt w)) (head (wt w)) x).

Lemma do_op_ok oom w p o : winv oom w p -> op_ok oom o -> exists w' p', outcome oom w p (do_op w o) w' p' /\ script w' = script w.
Proof.
  intros [I Hi Hs] Ho. destruct o as [timeout ty d ok|k]; cbn [do_op op_ok] in *.
  - destruct Ho as [Ho Hok]. destruct (add_ok (wt w) p timeout ty d ok I Ho) as [[-> Hwhy]|(t' & s & -> & V & N & I' & E1 & E2 & E3)]; cbn [bind].
    + exists (mk_world (wt w) (ids w ++ [INVALID]) (script w)), p. split; [|reflexivity]. eexists. split; [reflexivity|]. cbn [wt ids script].
      split; [constructor; cbn [wt ids script]; auto; apply Forall_app; auto|]. repeat (split; [first [reflexivity|lia]|]). split; [|auto]. intros. apply rules_one. constructor. destruct Hwhy as [->|]; [left|auto]. destruct Hok; [discriminate|assumption].
    + eexists (mk_world t' _ (script w)), _. split; [|reflexivity]. eexists. split; [reflexivity|]. cbn [wt ids script].
      split; [constructor; cbn [wt ids script]; auto|].
      { exact I'. }
      { apply Forall_app. split; [eapply ids_mono; eauto|auto]. }
      split; [exact E1|]. split; [exact E2|]. split; [exact E3|]. split.
      * intros. apply rules_one. destruct (Z.eqb_spec (ts (wt w) + timeout) INVALID);
          [apply R_add_lost|apply R_add]; auto; try lia; now apply (valid_ne t').
      * intros x Hx. destruct (_ =? INVALID); [auto|]. destruct Hx as [<-|Hx]; [right|auto]. exists timeout, ty, d, s. auto.
  - destruct (nth_error (ids w) k) as [id|] eqn:E.
    + assert (Hid : id = INVALID \/ valid_id (wt w) id).
      { rewrite Forall_forall in Hi. apply Hi. eapply nth_error_In; eauto. }
      destruct (cancel_ok (wt w) p id I Hid) as (t' & -> & I' & E1 & E2 & E3). cbn [bind].
      eexists (mk_world t' _ (script w)), _. split; [|reflexivity]. eexists. split; [reflexivity|]. cbn [wt ids script].
      split; [constructor; cbn [wt ids script]; auto; [exact I'|eapply ids_mono; [|exact Hi]; lia]|].
      split; [exact E1|]. split; [exact E2|]. split; [lia|]. split.
      * intros. apply rules_one. constructor.
      * intros [id' r] Hx. apply in_remove in Hx. tauto.
    + exists w, p. split; [|reflexivity]. exists []. split; [reflexivity|]. split; [constructor; auto|].
      repeat (split; [first [reflexivity|lia]|]). split; [constructor|auto].
Qed.

Lemma outcome_trans oom w p r1 w1 p1 w2 p2 (k : world -> res (world * list event)) :
  outcome oom w p r1 w1 p1 -> outcome oom w1 p1 (k w1) w2 p2 ->
  outcome oom w p (let* (w, e1) := r1 in let* (w, e2) := k w in Ok (w, e1 ++ e2)) w2 p2.
Proof.
  intros (tr1 & -> & W1 & T1 & H1 & L1 & R1 & F1) (tr2 & E2 & W2 & T2 & H2 & L2 & R2 & F2).
  cbn [bind]. rewrite E2. cbn [bind]. exists (tr1 ++ tr2). split; [reflexivity|]. split; [exact W2|].
  split; [congruence|]. split; [congruence|]. split; [lia|]. split.
  - intros. eapply rules_app; [apply R1|]. rewrite <- T1. apply R2.
  - intros x Hx. destruct (F2 x Hx) as [Hx1|Hx1]; [auto|]. right. now rewrite T1, H1 in Hx1.
Qed.

Lemma do_ops_ok oom os : forall w p, winv oom w p -> Forall (op_ok oom) os ->
  exists w' p', outcome oom w p (do_ops w os) w' p' /\ script w' = script w.
Proof.
  induction os as [|o os IH]; intros w p W Ho; cbn [do_ops].
  - exists w, p. split; [|reflexivity]. exists []. split; [reflexivity|]. split; [exact W|].
    repeat (split; [first [reflexivity|lia]|]). split; [constructor|auto].
  - inversion Ho as [|? ? Ho1 Ho2]; subst.
    destruct (do_op_ok oom w p o W Ho1) as (w1 & p1 & O1 & S1).
    assert (W1 : winv oom w1 p1) by (destruct O1 as (? & _ & ? & _); assumption).
    destruct (IH w1 p1 W1 Ho2) as (w2 & p2 & O2 & S2).
    exists w2, p2. split; [|congruence]. eapply (outcome_trans _ _ _ _ _ _ _ _ (fun w => do_ops w os)); eauto.
Qed.

Lemma callback_ok oom w p : winv oom w p -> exists w' p', outcome oom w p (callback w) w' p'.
Proof.
  intro W. unfold callback. pose proof W as [I Hi Hs]. destruct (script w) as [|os rest] eqn:E.
  - exists w, p. exists []. split; [reflexivity|]. split; [exact W|].
    repeat (split; [first [reflexivity|lia]|]). split; [constructor|auto].
  - inversion Hs; subst. destruct (do_ops_ok oom os (mk_world (wt w) (ids w) rest) p) as (w' & p' & O & _); auto.
    { constructor; auto. }
    exists w', p'. exact O.
Qed.

(** ** Scanning *)
Section Scan.
(** During a poll: the timer's timestamp [T] and head [h]; [Q] is what is to
    hold of every pending timer after the poll, [R] what holds throughout. *)
Variables (oom : bool) (T h : Z) (Q R : Z -> Z -> Prop).
Hypothesis fresh_ok : forall x, fresh T h x -> R (fst x) (fst (fst (snd x))) /\ Q (fst x) (fst (fst (snd x))).
Hypothesis later_ok : forall id dl, R id dl -> T < dl -> Q id dl.

Definition covered (E : Z -> Prop) (p : pending) : Prop :=
  forall id dl ty d, In (id, (dl, ty, d)) p -> R id dl /\ (Q id dl \/ E id).

Lemma covered_more E p p' : covered E p -> (forall x, In x p' -> In x p \/ fresh T h x) -> covered E p'.
Proof.
  intros C F id dl ty d Hi. destruct (F _ Hi) as [Hx|Hx]; [now apply (C id dl ty d)|].
  apply fresh_ok in Hx. cbn in Hx. tauto.
Qed.

Lemma scan_ok : forall n w p hd i (rest : Z -> Prop),
  winv oom w p -> ts (wt w) = T -> head (wt w) = h -> 0 <= hd < 16 -> 0 <= i -> i + Z.of_nat n <= wheel (wt w) ->
  covered (fun id => (idp id = hd /\ i <= ids_ id < i + Z.of_nat n) \/ rest (idp id)) p ->
  exists w' p' tr, scan n w hd (wheel (wt w) * hd) i = Ok (w', tr) /\ winv oom w' p' /\
    ts (wt w') = T /\ head (wt w') = h /\ wheel (wt w) <= wheel (wt w') /\
    (forall slack g, rules slack oom (mk_view T g p) tr (mk_view T g p')) /\
    covered (fun id => rest (idp id)) p'.
Proof.
  induction n as [|n IH]; intros w p hd i rest W HT Hh Hhd Hi Hn C; cbn [scan].
  - exists w, p, []. split; [reflexivity|]. split; [exact W|]. repeat (split; [first [assumption|lia]|]).
    split; [constructor|]. intros id dl ty d Hin. destruct (C id dl ty d Hin) as [HR [HQ|[HE|HE]]]; auto. lia.
  - pose proof W as [I Hids Hs]. pose proof (i_shape _ _ I) as S. pose proof S as [Hts Hhh Hw Hl].
    assert (V : valid_id (wt w) (id_of hd i)) by (split; [rewrite idp_of|rewrite ids_of]; lia).
    pose proof (idx_range _ _ S V) as Hr. rewrite idp_of, ids_of in Hr by lia.
    destruct (at_id_some _ _ S V) as ([[to ty] d] & Ha). unfold at_id in Ha. rewrite idp_of, ids_of in Ha by lia.
    rewrite (Z.mul_comm (wheel (wt w)) hd). rewrite u32_small by lia.
    rewrite (zload_ok _ _ _ Ha). cbn [bind].
    assert (Hlook : look (wt w) (id_of hd i) = if to =? INVALID then None else Some (to, ty, d)).
    { rewrite look_at by exact V. unfold at_id. now rewrite idp_of, ids_of, Ha by lia. }
    destruct (Z.leb_spec to (ts (wt w))) as [Hle|Hgt].
    + assert (Hne : to <> INVALID) by lia.
      replace (to =? INVALID) with false in Hlook by lia.
      assert (Hin : exists dl, In (id_of hd i, (dl, ty, d)) p /\ to = u64 dl /\ dl <> INVALID).
      { assert (H : In (id_of hd i) (map fst p)) by (apply (i_look _ _ I); congruence).
        apply in_fst in H as (dl & ty' & d' & H). pose proof (i_in _ _ I _ _ _ _ H) as (H1 & H2 & H3).
        rewrite Hlook in H1. injection H1 as -> -> ->. eauto. }
      destruct Hin as (dl0 & Hin & Hto & Hdl).
      rewrite zput_ok by lia. cbn [bind].
      set (w1 := mk_world (mk_timer (ts (wt w)) (head (wt w)) (wheel (wt w))
                   (zset (slots (wt w)) (hd * wheel (wt w) + i) (INVALID, ty, d))) (ids w) (script w)).
      assert (W1 : winv oom w1 (remove_id (id_of hd i) p)).
      { constructor; cbn [w1 wt ids script]; auto.
        pose proof (inv_remove (wt w) p (id_of hd i) INVALID ty d I V eq_refl) as I1.
        unfold upd in I1. now rewrite idp_of, ids_of in I1 by lia. }
      destruct (callback_ok oom w1 _ W1) as (w2 & p2 & (tr1 & -> & W2 & T2 & H2 & L2 & R2 & F2)).
      cbn [bind]. cbn [w1 wt ts head wheel] in T2, H2, L2, R2, F2. rewrite HT in *. rewrite Hh in *.
      destruct (IH w2 p2 hd (i + 1) rest W2) as (w3 & p3 & tr2 & E3 & W3 & T3 & H3 & L3 & R3 & C3); try congruence; try lia.
      { eapply covered_more; [|exact F2]. intros id dl ty' d' Hx. apply in_remove in Hx as [Hx Hd].
        destruct (C id dl ty' d' Hx) as [HR [HQ|[[HE1 HE2]|HE]]]; auto. split; [exact HR|]. right. left. split; [exact HE1|].
        assert (ids_ id <> i) by (intro He; apply Hd; rewrite <- (of_id id), HE1, He; reflexivity). lia. }
      rewrite (u32_small (wheel (wt w2) * hd)) by (pose proof (i_shape _ _ (wi _ _ _ W2)) as []; nia).
      rewrite E3. cbn [bind]. exists w3, p3. eexists. split; [reflexivity|]. split; [exact W3|].
      split; [exact T3|]. split; [exact H3|]. split; [lia|]. split; [|exact C3].
      intros slack g. econstructor.
      * rewrite id_lor by lia. rewrite Hto. constructor; [exact Hin|exact Hdl|lia].
      * eapply rules_app; [apply R2|apply R3].
    + rewrite (Z.mul_comm hd (wheel (wt w))).
      destruct (IH w p hd (i + 1) rest W HT Hh) as (w3 & p3 & tr2 & E3 & H3); try lia.
      { intros id dl ty' d' Hx. destruct (C id dl ty' d' Hx) as [HR [HQ|[[HE1 HE2]|HE]]]; auto. split; [exact HR|].
        destruct (Z.eq_dec (ids_ id) i) as [He|He].
        - left. assert (Hid : id = id_of hd i) by (rewrite <- (of_id id), HE1, He; reflexivity).
          apply (i_in _ _ I) in Hx as (Hx & Hx0 & _). rewrite Hid, Hlook in Hx. destruct (to =? INVALID); [discriminate|].
          injection Hx as Hx _ _. apply later_ok; [exact HR|].
          assert (u64 dl <= dl) by (apply Z.mod_le; lia). lia.
        - right. left. split; [exact HE1|lia]. }
      exists w3, p3, tr2. auto.
Qed.

Lemma turn_ok : forall n w p hd,
  winv oom w p -> ts (wt w) = T -> head (wt w) = h -> 0 <= hd < 16 ->
  covered (fun id => exists j, 0 <= j < Z.of_nat n /\ idp id = (hd + j) mod 16) p ->
  exists w' p' tr, turn n w hd = Ok (w', tr) /\ winv oom w' p' /\
    ts (wt w') = T /\ head (wt w') = h /\
    (forall slack g, rules slack oom (mk_view T g p) tr (mk_view T g p')) /\
    (forall id dl ty d, In (id, (dl, ty, d)) p' -> R id dl /\ Q id dl).
Proof.
  induction n as [|n IH]; intros w p hd W HT Hh Hhd C; cbn [turn].
  - exists w, p, []. split; [reflexivity|]. split; [exact W|]. split; [exact HT|]. split; [exact Hh|].
    split; [constructor|]. intros id dl ty d Hin. destruct (C id dl ty d Hin) as [HR [HQ|(j & Hj & _)]]; auto. lia.
  - pose proof (i_shape _ _ (wi _ _ _ W)) as [Hts Hhh Hw Hl].
    rewrite (u32_small (wheel (wt w) * hd)) by nia.
    destruct (scan_ok (Z.to_nat (wheel (wt w))) w p hd 0
      (fun q => exists j, 0 <= j < Z.of_nat n /\ q = (hd + 1 + j) mod 16)) as (w1 & p1 & tr1 & -> & W1 & T1 & H1 & L1 & R1 & C1); auto; try lia.
    { intros id dl ty d Hin. destruct (C id dl ty d Hin) as [HR [HQ|(j & Hj & HE)]]; auto. split; [exact HR|]. right.
      destruct (Z.eq_dec j 0) as [->|Hj0].
      - left. split; [rewrite HE, Z.add_0_r; apply Z.mod_small; lia|].
        apply (i_in _ _ (wi _ _ _ W)) in Hin as [Hin _]. apply look_valid in Hin as [_ Hv]. lia.
      - right. exists (j - 1). split; [lia|]. rewrite HE. f_equal. lia. }
    cbn [bind]. rewrite land15 by lia.
    destruct (IH w1 p1 ((hd + 1) mod 16) W1 T1 H1) as (w2 & p2 & tr2 & E2 & W2 & T2 & H2 & R2 & C2).
    { apply Z.mod_pos_bound. lia. }
    { intros id dl ty d Hin. destruct (C1 id dl ty d Hin) as [HR [HQ|(j & Hj & HE)]]; auto. split; [exact HR|]. right.
      exists j. split; [exact Hj|]. now rewrite Zplus_mod_idemp_l. }
    change (16 - 1) with 15 in *. unfold WHEELS. change (16 - 1) with 15. rewrite E2. cbn [bind].
    exists w2, p2. eexists. split; [reflexivity|]. split; [exact W2|]. split; [exact T2|]. split; [exact H2|].
    split; [|exact C2]. intros. eapply rules_app; [apply R1|apply R2].
Qed.
End Scan.

(** ** sc_timer_timeout *)
Lemma ret_range time : 0 <= time < 2^64 ->
  (if u64 (TICK - time) <? TICK then u64 (TICK - time) else TICK) = (if time <=? 16 then 16 - time else 16).
Proof.
  intros Ht. unfold TICK. destruct (Z.leb_spec time 16).
  - rewrite u64_small by lia. destruct (Z.ltb_spec (16 - time) 16); lia.
  - replace (u64 (16 - time)) with (2^64 + 16 - time); [destruct (Z.ltb_spec (2^64 + 16 - time) 16); lia|].
    unfold u64. rewrite <- (Z.mod_small (2^64 + 16 - time) (2^64)) by lia.
    replace (2^64 + 16 - time) with (16 - time + 1 * 2^64) by lia. apply Z.mod_add. lia.
Qed.

Lemma poll_short oom w p now : winv oom w p -> ts (wt w) <= now < INVALID -> now - ts (wt w) < 16 ->
  exists tr, timer_timeout w now = Ok (w, tr) /\
    forall (slack : Z -> Z) g,
      (forall id dl ty d, In (id, (dl, ty, d)) p -> now < dl + slack (now - ts (wt w))) ->
      rules slack oom (mk_view (ts (wt w)) g p) tr (mk_view (ts (wt w)) (now - ts (wt w)) p).
Proof.
  intros W Hn Hg. pose proof (i_shape _ _ (wi _ _ _ W)) as [Hts Hhh Hw Hl]. unfold timer_timeout.
  rewrite (u64_small (now - ts (wt w))) by lia.
  assert (Hz : (now - ts (wt w)) / TICK = 0) by (apply Z.div_small; unfold TICK; lia). rewrite Hz.
  change (u32 (if 0 <? WHEELS then 0 else WHEELS) =? 0) with true. cbn [negb].
  eexists. split; [reflexivity|]. intros slack g Hs. econstructor; [constructor; lia|].
  replace (now - ts (wt w) <? 16) with true by lia. apply rules_one. constructor; [| |exact Hs].
  - destruct (Z.ltb_spec (now - ts (wt w)) 16); lia.
  - apply ret_range. lia.
Qed.

Lemma poll_long oom w p now (Q R : Z -> Z -> Prop) :
  winv oom w p -> ts (wt w) <= now < INVALID -> 16 <= now - ts (wt w) ->
  let n := Z.min ((now - ts (wt w)) / 16) 16 in
  let h := (head (wt w) + n) mod 16 in
  (forall x, fresh now h x -> R (fst x) (fst (fst (snd x))) /\ Q (fst x) (fst (fst (snd x)))) ->
  (forall id dl, R id dl -> now < dl -> Q id dl) ->
  (forall id dl ty d, In (id, (dl, ty, d)) p -> R id dl /\ (Q id dl \/ (idp id - head (wt w)) mod 16 < n)) ->
  exists w' p' tr, timer_timeout w now = Ok (w', tr) /\ winv oom w' p' /\ ts (wt w') = now /\ head (wt w') = h /\
    (forall id dl ty d, In (id, (dl, ty, d)) p' -> R id dl /\ Q id dl) /\
    forall (slack : Z -> Z) g, (forall id dl, Q id dl -> now < dl + slack (now - ts (wt w))) ->
      rules slack oom (mk_view (ts (wt w)) g p) tr (mk_view now (now - ts (wt w)) p').
Proof.
  intros W Hn Hg n h HF HL HC. pose proof (i_shape _ _ (wi _ _ _ W)) as [Hts Hhh Hw Hl]. unfold timer_timeout.
  cbv zeta. rewrite (u64_small (now - ts (wt w))) by (unfold INVALID in *; lia).
  assert (Hd : 1 <= (now - ts (wt w)) / 16) by (apply Z.div_le_lower_bound; lia).
  assert (Hnr : 1 <= n <= 16) by lia.
  assert (Hwh : u32 (if (now - ts (wt w)) / TICK <? WHEELS then (now - ts (wt w)) / TICK else WHEELS) = n).
  { unfold n, TICK, WHEELS. destruct (Z.ltb_spec ((now - ts (wt w)) / 16) 16); rewrite u32_small; lia. }
  rewrite Hwh. replace (n =? 0) with false by lia.
  rewrite (u32_small (head (wt w) + n)) by lia. unfold WHEELS. change (16 - 1) with 15. rewrite land15 by lia. fold h.
  destruct (turn_ok oom now h Q R HF HL (Z.to_nat n)
    (mk_world (mk_timer now h (wheel (wt w)) (slots (wt w))) (ids w) (script w)) p (head (wt w)))
    as (w' & p' & tr & -> & W' & T' & H' & R' & C'); cbn [wt ts head]; auto.
  { destruct W as [[S N A L] Hi Hs]. constructor; cbn [wt ids script]; auto.
    constructor; auto. constructor; cbn [ts head wheel slots]; auto; [lia|]. apply Z.mod_pos_bound. lia. }
  { intros id dl ty d Hin. destruct (HC id dl ty d Hin) as [HR [HQ|HE]]; auto. split; [exact HR|]. right.
    pose proof (Z.mod_pos_bound (idp id - head (wt w)) 16).
    exists ((idp id - head (wt w)) mod 16). split; [lia|].
    rewrite Zplus_mod_idemp_r. replace (head (wt w) + (idp id - head (wt w))) with (idp id) by lia.
    apply (i_in _ _ (wi _ _ _ W)) in Hin as [Hin _]. apply look_valid in Hin as [Hv _]. symmetry. now apply Z.mod_small. }
  cbn [bind]. exists w', p'. eexists. split; [reflexivity|]. split; [exact W'|]. split; [exact T'|]. split; [exact H'|].
  split; [exact C'|]. intros slack g Hs. econstructor; [constructor; lia|].
  replace (now - ts (wt w) <? 16) with false by lia. eapply rules_app; [apply R'|]. apply rules_one. constructor.
  - destruct (Z.ltb_spec (now - ts (wt w)) 16); lia.
  - apply ret_range. unfold INVALID in *; lia.
  - intros id dl ty d Hin. apply (Hs id). now apply (C' id dl ty d).
Qed.

(** ** clear *)
Lemma clear_ok t p : inv t p -> inv (timer_clear t) [].
Proof.
  intros [S N A L]. pose proof S as [Hts Hhh Hw Hl].
  assert (Hcap : u32 (wheel t * WHEELS) = wheel t * 16) by (unfold WHEELS; apply u32_small; lia).
  unfold timer_clear. cbv zeta. rewrite Hcap.
  set (l := map _ _ ++ _).
  assert (Hlen : zlen l = wheel t * 32).
  { unfold l. rewrite zlen_app, zlen_map, zlen_firstn, zlen_skipn. change (zlen (slots t)) with (@zlen slot (slots t)) in *. rewrite !Hl. lia. }
  constructor; [constructor; cbn [ts head wheel slots]; auto; lia|constructor|intros ? ? ? ? []|].
  intros id H0. match type of H0 with ?x <> None => destruct x as [r|] eqn:H end; [|congruence]. exfalso.
  pose proof (look_valid _ _ _ H) as V. rewrite look_at in H by exact V. unfold at_id in H. cbn [slots wheel] in H.
  assert (Hi : 0 <= idp id * wheel t + ids_ id < wheel t * 16) by (apply (idx_range t id S V)).
  unfold l in H. rewrite zget_app1 in H by (rewrite zlen_map, zlen_firstn; change (zlen (slots t)) with (@zlen slot (slots t)); rewrite Hl; lia).
  rewrite zget_map, zget_firstn in H. destruct (_ <? _); [|discriminate].
  match type of H with context [option_map _ ?z] => destruct z as [[[to ty] d]|] end; cbn in H; discriminate.
Qed.

(** ** Whole programs *)
Lemma init_inv now : 0 <= now < INVALID -> inv (timer_init now) [].
Proof.
  intro H. constructor; [constructor; cbn [timer_init ts head wheel slots]; first [lia|reflexivity]|constructor|intros ? ? ? ? []|].
  intros id Hl. destruct (look _ id) eqn:E; [|congruence]. apply look_valid in E as [_ Hv]. cbn in Hv. lia.
Qed.

Section Program.
(** [J T h id dl]: what holds between polls of the pending timers; [G last now]
    restricts the polls. *)
Variables (oom : bool) (J : Z -> Z -> Z -> Z -> Prop) (G : Z -> Z -> Prop) (slack : Z -> Z).
Definition allJ (T h : Z) (p : pending) : Prop := forall id dl ty d, In (id, (dl, ty, d)) p -> J T h id dl.
Hypothesis J_fresh : forall T h x, 0 <= h < 16 -> fresh T h x -> J T h (fst x) (fst (fst (snd x))).
Hypothesis J_poll : forall w p now g last, winv oom w p -> ts (wt w) <= last -> last - ts (wt w) < 16 -> last <= now < INVALID -> G (ts (wt w)) now ->
  allJ (ts (wt w)) (head (wt w)) p ->
  exists w' p' tr, timer_timeout w now = Ok (w', tr) /\ winv oom w' p' /\ ts (wt w') <= now /\ now - ts (wt w') < 16 /\
    allJ (ts (wt w')) (head (wt w')) p' /\
    ts (wt w') = (if now - ts (wt w) <? 16 then ts (wt w) else now) /\
    rules slack oom (mk_view (ts (wt w)) g p) tr (mk_view (ts (wt w')) (now - ts (wt w)) p').

(** [G] along a program, relative to the timer's timestamp. *)
Fixpoint along (T : Z) (os : list top) : Prop :=
  match os with
  | [] => True
  | TPoll now :: r => G T now /\ along (if now - T <? 16 then T else now) r
  | _ :: r => along T r
  end.

Lemma tops_rules : forall os w p g last, winv oom w p -> ts (wt w) <= last -> last - ts (wt w) < 16 ->
  tops_ok oom last os -> along (ts (wt w)) os -> allJ (ts (wt w)) (head (wt w)) p ->
  exists w' tr v', do_tops w os = Ok (w', tr) /\ rules slack oom (mk_view (ts (wt w)) g p) tr v' /\ winv oom w' (pend v').
Proof.
  induction os as [|o os IH]; intros w p g last W H1 H2 Ho Ha HJ; cbn [do_tops].
  - exists w, []. eexists. split; [reflexivity|]. split; [constructor|exact W].
  - destruct o as [o|now|]; cbn [tops_ok along do_top] in *.
    + destruct Ho as [Ho1 Ho2].
      destruct (do_op_ok oom w p o W Ho1) as (w1 & p1 & (tr1 & -> & W1 & T1 & E1 & L1 & R1 & F1) & S1). cbn [bind].
      destruct (IH w1 p1 g last W1) as (w2 & tr2 & v2 & -> & R2 & W2); rewrite ?T1; auto.
      { rewrite E1. intros id dl ty d Hin. destruct (F1 _ Hin) as [Hx|Hx]; [now apply (HJ id dl ty d)|].
        apply J_fresh in Hx; [exact Hx|]. apply (i_shape _ _ (wi _ _ _ W)). }
      cbn [bind]. eexists _, _, v2. split; [reflexivity|]. split; [|exact W2]. eapply rules_app; [apply R1|]. rewrite T1 in R2. exact R2.
    + destruct Ho as [Ho1 Ho2], Ha as [Ha1 Ha2].
      destruct (J_poll w p now g last W H1 H2 Ho1 Ha1 HJ) as (w1 & p1 & tr1 & -> & W1 & T1 & T2 & J1 & E1 & R1).
      cbn [bind]. rewrite <- E1 in Ha2.
      destruct (IH w1 p1 (now - ts (wt w)) now W1 T1 T2 Ho2 Ha2 J1) as (w2 & tr2 & v2 & -> & R2 & W2).
      cbn [bind]. eexists _, _, v2. split; [reflexivity|]. split; [|exact W2]. eapply rules_app; [apply R1|exact R2].
    + cbn [bind].
      destruct (IH (mk_world (timer_clear (wt w)) (ids w) (script w)) [] g last) as (w2 & tr2 & v2 & E2 & R2 & W2); auto.
      { destruct W as [I Hi Hs]. constructor; cbn [wt ids script]; auto. eapply clear_ok; eauto. }
      { intros ? ? ? ? []. }
      rewrite E2. cbn [bind]. eexists _, _, v2. split; [reflexivity|]. split; [|exact W2]. econstructor; [constructor|exact R2].
Qed.
End Program.

(** Arithmetic of a poll that moves the head by [n] wheels. *)
Lemma mod_shift p h n : 0 <= n <= (p - h) mod 16 -> (p - (h + n) mod 16) mod 16 = (p - h) mod 16 - n.
Proof.
  intro H. pose proof (Z.mod_pos_bound (p - h) 16).
  rewrite Zminus_mod_idemp_r. replace (p - (h + n)) with (p - h - n) by lia.
  rewrite <- Zminus_mod_idemp_l. apply Z.mod_small. lia.
Qed.
Lemma fresh_pos timeout h : (idp (id_of ((timeout / 16 + h) mod 16) 0) - h) mod 16 = (timeout / 16) mod 16.
Proof.
  rewrite idp_of by (apply Z.mod_pos_bound; lia). rewrite Zminus_mod_idemp_l. f_equal. lia.
Qed.

(** *** Any polls *)
Definition late (T h id dl : Z) : Prop := T <= dl + 31 * (15 - (idp id - h) mod 16).
Definition slack_any (g : Z) : Z := if 256 <=? g then 1 else 481.

Lemma late_poll oom w p now g last : winv oom w p -> ts (wt w) <= last -> last - ts (wt w) < 16 -> last <= now < INVALID -> True ->
  allJ late (ts (wt w)) (head (wt w)) p ->
  exists w' p' tr, timer_timeout w now = Ok (w', tr) /\ winv oom w' p' /\ ts (wt w') <= now /\ now - ts (wt w') < 16 /\
    allJ late (ts (wt w')) (head (wt w')) p' /\
    ts (wt w') = (if now - ts (wt w) <? 16 then ts (wt w) else now) /\
    rules slack_any oom (mk_view (ts (wt w)) g p) tr (mk_view (ts (wt w')) (now - ts (wt w)) p').
Proof.
  intros W H1 H2 Hn _ HJ. destruct (Z.ltb_spec (now - ts (wt w)) 16) as [Hs|Hl].
  - destruct (poll_short oom w p now W) as (tr & E & R); [lia|lia|].
    exists w, p, tr. split; [exact E|]. split; [exact W|]. split; [lia|]. split; [lia|]. split; [exact HJ|]. split; [reflexivity|].
    apply R. intros id dl ty d Hin. specialize (HJ id dl ty d Hin). unfold late in HJ. unfold slack_any.
    pose proof (Z.mod_pos_bound (idp id - head (wt w)) 16). replace (256 <=? now - ts (wt w)) with false by lia. lia.
  - set (n := Z.min ((now - ts (wt w)) / 16) 16). set (h := (head (wt w) + n) mod 16).
    pose proof (Z.div_mod (now - ts (wt w)) 16) as Hdm. pose proof (Z.mod_pos_bound (now - ts (wt w)) 16) as Hmb.
    assert (Hn1 : 1 <= n <= 16) by (unfold n; assert (1 <= (now - ts (wt w)) / 16) by (apply Z.div_le_lower_bound; lia); lia).
    destruct (poll_long oom w p now (fun id dl => late now h id dl /\ (256 <= now - ts (wt w) -> now <= dl)) (fun _ _ => True) W)
      as (w' & p' & tr & E & W' & T' & H' & J' & R'); fold n; fold h; try lia.
    + intros x (timeout & ty & d & s & -> & Ht). cbn [fst snd]. split; [exact I|]. unfold late.
      pose proof (Z.mod_pos_bound (idp (id_of ((timeout / 16 + h) mod 16) s) - h) 16). lia.
    + intros id dl _ Hd. unfold late. pose proof (Z.mod_pos_bound (idp id - h) 16). lia.
    + intros id dl ty d Hin. split; [exact I|]. destruct (Z.lt_ge_cases ((idp id - head (wt w)) mod 16) n) as [Hlt|Hge]; [auto|].
      left. specialize (HJ id dl ty d Hin). unfold late in HJ.
      pose proof (Z.mod_pos_bound (idp id - head (wt w)) 16).
      assert (Hn15 : n = (now - ts (wt w)) / 16) by (unfold n in *; lia).
      split; [|lia]. unfold late, h. rewrite mod_shift by lia. lia.
    + exists w', p', tr. split; [exact E|]. split; [exact W'|]. rewrite T', H'. split; [lia|]. split; [lia|].
      split; [intros id dl ty d Hin; apply (J' id dl ty d Hin)|]. split; [reflexivity|]. apply R'.
      intros id dl [HL HQ]. unfold slack_any. unfold late in HL. pose proof (Z.mod_pos_bound (idp id - h) 16).
      destruct (Z.leb_spec 256 (now - ts (wt w))); lia.
Qed.

(** *** Polls at whole ticks *)
Definition sync (T h id dl : Z) : Prop := T <= dl /\ (idp id - h) mod 16 = ((dl - T) / 16) mod 16.
Definition whole (T now : Z) : Prop := (now - T) mod 16 = 0 /\ now - T <= 256.
Definition slack_one (g : Z) : Z := 1.

Lemma sync_poll oom w p now g last : winv oom w p -> ts (wt w) <= last -> last - ts (wt w) < 16 -> last <= now < INVALID ->
  whole (ts (wt w)) now -> allJ sync (ts (wt w)) (head (wt w)) p ->
  exists w' p' tr, timer_timeout w now = Ok (w', tr) /\ winv oom w' p' /\ ts (wt w') <= now /\ now - ts (wt w') < 16 /\
    allJ sync (ts (wt w')) (head (wt w')) p' /\
    ts (wt w') = (if now - ts (wt w) <? 16 then ts (wt w) else now) /\
    rules slack_one oom (mk_view (ts (wt w)) g p) tr (mk_view (ts (wt w')) (now - ts (wt w)) p').
Proof.
  intros W H1 H2 Hn [Hw1 Hw2] HJ. destruct (Z.ltb_spec (now - ts (wt w)) 16) as [Hs|Hl].
  - rewrite Z.mod_small in Hw1 by lia. destruct (poll_short oom w p now W) as (tr & E & R); [lia|lia|].
    exists w, p, tr. split; [exact E|]. split; [exact W|]. split; [lia|]. split; [lia|]. split; [exact HJ|]. split; [reflexivity|].
    apply R. intros id dl ty d Hin. destruct (HJ id dl ty d Hin) as [HJ1 _]. unfold slack_one. lia.
  - set (n := Z.min ((now - ts (wt w)) / 16) 16). set (h := (head (wt w) + n) mod 16).
    pose proof (Z.div_mod (now - ts (wt w)) 16) as Hdm.
    assert (Hn1 : now = ts (wt w) + 16 * n) by (unfold n; lia).
    set (T := ts (wt w)) in *.
    assert (Hn2 : 1 <= n <= 16) by (unfold n in *; lia).
    destruct (poll_long oom w p now (fun id dl => now <= dl) (fun id dl => (idp id - h) mod 16 = ((dl - now) / 16) mod 16) W)
      as (w' & p' & tr & E & W' & T' & H' & J' & R'); fold T; fold n; fold h; try lia.
    + intros x (timeout & ty & d & s & -> & Ht). cbn [fst snd]. split; [|lia].
      rewrite idp_of by (apply Z.mod_pos_bound; lia). rewrite Zminus_mod_idemp_l.
      replace (now + timeout - now) with timeout by lia. f_equal. lia.
    + intros id dl ty d Hin. destruct (HJ id dl ty d Hin) as [HJ1 HJ2]. fold T in HJ1, HJ2. split.
      * unfold h. rewrite Zminus_mod_idemp_r. replace (idp id - (head (wt w) + n)) with (idp id - head (wt w) - n) by lia.
        rewrite <- Zminus_mod_idemp_l, HJ2, Zminus_mod_idemp_l. f_equal.
        rewrite Hn1. replace (dl - (T + 16 * n)) with (dl - T + (- n) * 16) by lia. rewrite Z.div_add by lia. lia.
      * destruct (Z.lt_ge_cases ((idp id - head (wt w)) mod 16) n) as [Hlt|Hge]; [auto|]. left.
        rewrite HJ2 in Hge. pose proof (Z.div_mod (dl - T) 16). pose proof (Z.mod_pos_bound (dl - T) 16).
        assert (Hle : ((dl - T) / 16) mod 16 <= (dl - T) / 16) by (apply Z.mod_le; [apply Z.div_pos|]; lia). lia.
    + exists w', p', tr. split; [exact E|]. split; [exact W'|]. rewrite T', H'. split; [lia|]. split; [lia|].
      split; [intros id dl ty d Hin; destruct (J' id dl ty d Hin); split; assumption|]. split; [reflexivity|]. apply R'.
      intros id dl HQ. unfold slack_one. lia.
Qed.

Theorem any_program oom start scr os : 0 <= start < INVALID -> script_ok oom scr -> tops_ok oom start os ->
  exists w' tr v', do_tops (mk_world (timer_init start) [] scr) os = Ok (w', tr) /\
    rules slack_any oom (mk_view start 0 []) tr v' /\ winv oom w' (pend v').
Proof.
  intros Hs Hc Ho.
  apply (tops_rules oom late (fun _ _ => True) slack_any) with (last := start); cbn [wt timer_init ts head]; auto; try lia.
  - intros T h x Hh (timeout & ty & d & s & -> & Ht). cbn [fst snd]. unfold late.
    pose proof (Z.mod_pos_bound (idp (id_of ((timeout / 16 + h) mod 16) s) - h) 16). lia.
  - exact (late_poll oom).
  - constructor; cbn [wt ids script]; auto. now apply init_inv.
  - clear. generalize start. induction os as [|[]]; cbn; auto.
  - intros ? ? ? ? [].
Qed.

Theorem aligned_program oom start scr os : 0 <= start < INVALID -> script_ok oom scr -> tops_ok oom start os -> tops_aligned start os ->
  exists w' tr v', do_tops (mk_world (timer_init start) [] scr) os = Ok (w', tr) /\
    rules slack_one oom (mk_view start 0 []) tr v' /\ winv oom w' (pend v').
Proof.
  intros Hs Hc Ho Ha.
  apply (tops_rules oom sync whole slack_one) with (last := start); cbn [wt timer_init ts head]; auto; try lia.
  - intros T h x Hh (timeout & ty & d & s & -> & Ht). cbn [fst snd]. unfold sync. split; [lia|].
    rewrite idp_of by (apply Z.mod_pos_bound; lia). rewrite Zminus_mod_idemp_l.
    replace (T + timeout - T) with timeout by lia. f_equal. lia.
  - exact (sync_poll oom).
  - constructor; cbn [wt ids script]; auto. now apply init_inv.
  - revert start Hs Ho Ha. induction os as [|[o|now|] os IH]; cbn [along tops_ok tops_aligned]; intros start Hs Ho Ha; auto.
    + apply IH; tauto.
    + destruct Ho as [Ho1 Ho2]. destruct Ha as (Ha1 & Ha2 & Ha3). split; [split; assumption|].
      destruct (Z.ltb_spec (now - start) 16) as [Hlt|Hge].
      * rewrite Z.mod_small in Ha1 by lia. assert (now = start) by lia. subst. apply IH; auto; lia.
      * apply IH; auto; lia.
  - intros ? ? ? ? [].
Qed.

(** ** From the rules to traces *)
Section Traces.
Variables (slack : Z -> Z) (oom : bool).

Lemma rules_split a b : forall v v', rules slack oom v (a ++ b) v' -> exists m, rules slack oom v a m /\ rules slack oom m b v'.
Proof.
  induction a as [|e a IH]; intros v v' H; cbn in H.
  - exists v. split; [constructor|exact H].
  - inversion H; subst. destruct (IH _ _ H5) as (m & H1 & H2). exists m. split; [econstructor; eauto|exact H2].
Qed.
Lemma rules_base tr v v' : rules slack oom v tr v' -> base v' = epoch (base v) tr.
Proof. induction 1 as [|v e v1 tr v2 R _ IH]; [reflexivity|]. rewrite IH. inversion R; reflexivity. Qed.
Lemma rules_clock tr v v' c : rules slack oom v tr v' -> base v <= c < base v + 16 ->
  base v' <= clock c tr < base v' + 16.
Proof.
  intro H. revert c. induction H as [|v e v1 tr v2 R _ IH]; intros c Hc; [exact Hc|].
  cbn [clock fold_left]. apply IH. inversion R; subst; cbn [base] in *; auto.
  destruct (Z.ltb_spec (now - b) 16); lia.
Qed.

Lemma rules_max tr v v' c : rules slack oom v tr v' -> c < INVALID -> clock c tr < INVALID.
Proof.
  intro H. revert c. induction H as [|v e v1 tr v2 R _ IH]; intros c Hc; [exact Hc|].
  cbn [clock fold_left]. apply IH. inversion R; subst; auto. lia.
Qed.

Lemma rules_pos tr v v' : rules slack oom v tr v' -> 0 <= base v -> (forall id dl ty d, In (id, (dl, ty, d)) (pend v) -> 0 <= dl) ->
  0 <= base v' /\ (forall id dl ty d, In (id, (dl, ty, d)) (pend v') -> 0 <= dl).
Proof.
  induction 1 as [|v e v1 tr v2 R _ IH]; intros Hb Hp; [auto|].
  apply IH; inversion R; subst; cbn [base pend] in *; auto.
  - destruct (_ <? 16); lia.
  - intros i dl ty' d' [[= <- <- <- <-]|Hi]; [lia|eauto].
  - intros i dl ty' d' Hi. apply in_remove in Hi as [Hi _]. eauto.
  - intros i dl' ty' d' Hi. apply in_remove in Hi as [Hi _]. eauto.
  - intros ? ? ? ? [].
Qed.

(** The clock in terms of the view. *)
Definition last_of (v : view) : Z := if gap v <? 16 then base v + gap v else base v.
Lemma rules_last tr v v' c : rules slack oom v tr v' -> c = last_of v -> clock c tr = last_of v'.
Proof.
  intro H. revert c. induction H as [|v e v1 tr v2 R _ IH]; intros c Hc; [exact Hc|].
  cbn [clock fold_left]. apply IH. inversion R; subst; try reflexivity. unfold last_of. cbn [base gap].
  destruct (now - b <? 16); lia.
Qed.

Lemma clock_noPoll c tr : (forall x, ~ In (EPoll x) tr) -> clock c tr = c.
Proof.
  revert c. induction tr as [|e tr IH]; intros c H; [reflexivity|]. cbn [clock fold_left].
  assert (He : match e with EPoll now => now | _ => c end = c).
  { destruct e; try reflexivity. exfalso. apply (H now). left. reflexivity. }
  rewrite He. apply IH. intros x Hx. apply (H x). right. exact Hx.
Qed.
Lemma rules_gap tr v v' : rules slack oom v tr v' -> (forall x, ~ In (EPoll x) tr) -> gap v' = gap v.
Proof.
  induction 1 as [|v e v1 tr v2 R _ IH]; intros H; [reflexivity|].
  rewrite IH by (intros x Hx; apply (H x); right; exact Hx).
  inversion R; subst; try reflexivity. exfalso. apply (H now). left. reflexivity.
Qed.

Definition good (v : view) : Prop := NoDup (map fst (pend v)) /\ forall x, In x (pend v) -> fst x <> INVALID.
Lemma good_step v e v' : rule slack oom v e v' -> good v -> good v'.
Proof.
  intros R [N I]. assert (Rm : forall id p, NoDup (map fst p) -> (forall x, In x p -> fst x <> INVALID) ->
    NoDup (map fst (remove_id id p)) /\ forall x, In x (remove_id id p) -> fst x <> INVALID).
  { intros id p Np Ip. split; [now apply remove_nodup|]. intros x Hx. apply Ip. now apply filter_In in Hx. }
  unfold good. inversion R; subst; cbn [pend] in *; auto.
  - split; [cbn; constructor; auto|]. intros x [<-|Hx]; auto.
  - split; [constructor|intros ? []].
Qed.
Lemma good_rules tr v v' : rules slack oom v tr v' -> good v -> good v'.
Proof. induction 1; eauto using good_step. Qed.

Lemma quiet_cons id e tr : quiet id (e :: tr) <->
  (match e with EAdd _ _ _ id' | ECancel id' | EFire id' _ _ _ => id' <> id | EClear => False | _ => True end) /\ quiet id tr.
Proof.
  unfold quiet. split.
  - intro H. split; [apply (H e); left; reflexivity|intros e' He; apply H; right; exact He].
  - intros [H1 H2] e' [<-|He]; [exact H1|exact (H2 e' He)].
Qed.

Lemma quiet_keeps id r tr v v' : rules slack oom v tr v' -> quiet id tr -> In (id, r) (pend v) -> In (id, r) (pend v').
Proof.
  induction 1 as [|v e v1 tr v2 R _ IH]; intros Hq Hi; [exact Hi|]. apply quiet_cons in Hq as [Hq1 Hq2].
  apply IH; [exact Hq2|]. inversion R; subst; cbn [pend] in *; auto; try contradiction.
  - right. exact Hi.
  - apply in_remove. auto.
  - apply in_remove. auto.
Qed.

Lemma provenance id r tr v v' : rules slack oom v tr v' -> good v -> In (id, r) (pend v') ->
  (In (id, r) (pend v) /\ quiet id tr) \/
  (exists a1 a2 to ty d, tr = a1 ++ EAdd to ty d id :: a2 /\ quiet id a2 /\ r = (epoch (base v) a1 + to, ty, d)).
Proof.
  induction 1 as [|v e v1 tr v2 R Rs IH]; intros G Hi.
  { left. split; [exact Hi|]. intros e []. }
  destruct (IH (good_step _ _ _ R G) Hi) as [[H1 H2]|(a1 & a2 & to & ty & d & -> & Hq & ->)].
  -
    inversion R; subst; cbn [pend] in *.
    + left. split; [exact H1|]. apply quiet_cons. split; [|exact H2]. destruct G as [_ G]. specialize (G _ H1). intro He. apply G. symmetry. exact He.
    + destruct H1 as [[= <- <-]|H1].
      * right. exists [], tr, to, ty, d. auto.
      * left. split; [exact H1|]. apply quiet_cons. split; [|exact H2]. intros ->.
        match goal with H : ~ In _ _ |- _ => apply H end. apply in_map_iff. exists (id, r). auto.
    + left. split; [exact H1|]. apply quiet_cons. split; [|exact H2]. intros ->.
      match goal with H : ~ In _ _ |- _ => apply H end. apply in_map_iff. exists (id, r). auto.
    + apply in_remove in H1 as [H1 Hne]. left. split; [exact H1|]. apply quiet_cons. auto.
    + left. split; [exact H1|]. apply quiet_cons. auto.
    + apply in_remove in H1 as [H1 Hne]. left. split; [exact H1|]. apply quiet_cons. auto.
    + left. split; [exact H1|]. apply quiet_cons. auto.
    + destruct H1.
  - right. exists (e :: a1), a2, to, ty, d. split; [reflexivity|]. split; [exact Hq|]. f_equal. f_equal. f_equal.
    cbn [epoch fold_left]. unfold epoch. f_equal. inversion R; reflexivity.
Qed.

Lemma pend_unique v id r r' : good v -> In (id, r) (pend v) -> In (id, r') (pend v) -> r = r'.
Proof.
  intros [N _]. induction (pend v) as [|[i x] p IH]; [intros []|]. cbn in N. inversion N as [|? ? Hn Hd]; subst.
  assert (K : forall y, In (i, y) p -> False) by (intros y Hy; apply Hn; apply in_map_iff; exists (i, y); auto).
  intros [H1|H1] [H2|H2]; auto.
  - congruence.
  - injection H1 as -> ->. exfalso. eauto.
  - injection H2 as -> ->. exfalso. eauto.
Qed.
End Traces.
