(** Proofs for the memory theorems. *)
From Coq Require Import ZifyBool.
From Verif Require Import Base MapModel MemModel MemSpec.
From Verif Require MapProofs.

Arguments Z.mul : simpl never.
Arguments Z.add : simpl never.
Arguments Z.sub : simpl never.
Arguments Z.pow : simpl never.
Arguments Z.div : simpl never.

Lemma u64_small x : 0 <= x < 2^64 -> u64 x = x.
Proof. intro; unfold u64; now rewrite Z.mod_small. Qed.
Lemma u32_small x : 0 <= x < 2^32 -> u32 x = x.
Proof. intro; unfold u32; now rewrite Z.mod_small. Qed.
Lemma u64_range x : 0 <= u64 x < 2^64.
Proof. unfold u64; apply Z.mod_pos_bound; lia. Qed.
Lemma u32_range x : 0 <= u32 x < 2^32.
Proof. unfold u32; apply Z.mod_pos_bound; lia. Qed.

(** * The store *)

Lemma find_drop l b x : find (drop l b) x = if b =? x then None else find l x.
Proof.
  induction l as [|[y i] l IH]; cbn; [now destruct (b =? x)|].
  destruct (y =? b) eqn:E1; cbn.
  - rewrite IH. destruct (b =? x) eqn:E2; [auto|]. destruct (y =? x) eqn:E3; [lia|auto].
  - destruct (y =? x) eqn:E3.
    + destruct (b =? x) eqn:E2; [lia|auto].
    + exact IH.
Qed.

Lemma find_in l b i : find l b = Some i -> In (b, i) l.
Proof.
  induction l as [|[y j] l IH]; cbn; [discriminate|].
  destruct (y =? b) eqn:E; intro H; [injection H as ->; left; f_equal; lia|right; auto].
Qed.

Lemma in_find l b i : NoDup (map fst l) -> In (b, i) l -> find l b = Some i.
Proof.
  induction l as [|[y j] l IH]; cbn; [easy|]. inversion 1; subst. intros [E|Hi].
  - injection E as -> ->. now rewrite Z.eqb_refl.
  - destruct (Z.eqb_spec y b); [|auto]. subst. exfalso. apply H2.
    change b with (fst (b, i)). now apply in_map.
Qed.

Lemma drop_keys l b x : In x (map fst (drop l b)) -> In x (map fst l) /\ x <> b.
Proof.
  induction l as [|[y j] l IH]; cbn; [easy|].
  destruct (Z.eqb_spec y b); cbn; [intros H; destruct (IH H); auto|].
  intros [->|H]; [auto|]. destruct (IH H); auto.
Qed.

Lemma drop_nodup l b : NoDup (map fst l) -> NoDup (map fst (drop l b)).
Proof.
  induction l as [|[y j] l IH]; cbn; [auto|]. inversion 1; subst.
  destruct (y =? b); cbn; [auto|]. constructor; auto. intro Hi. apply drop_keys in Hi. tauto.
Qed.

Definition okm (m : mem) : Prop :=
  NoDup (map fst (live m)) /\
  forall b s k, find (live m) b = Some (s, k) -> b < fresh m /\ 0 <= s <= ADDR_MAX.

(** What a call of an owner of [b] that then owns [b'] does to the store. *)
Definition frm (m : mem) (b : option Z) (m' : mem) (b' : option Z) : Prop :=
  fresh m <= fresh m' /\
  (forall x, b <> Some x -> x < fresh m -> find (live m') x = find (live m) x) /\
  (forall x, b' = Some x -> b = Some x \/ fresh m <= x) /\
  (forall x s, find (live m') x = Some (s, Alloc) -> b' = Some x \/ (b <> Some x /\ x < fresh m)).

Definition ins (m : mem) (sz : Z) : mem :=
  mk_mem ((fresh m, (sz, Alloc)) :: live m) (fresh m + 1).
Definition del (m : mem) (b : Z) : mem := mk_mem (drop (live m) b) (fresh m).
Definition stay (m : mem) (b sz : Z) : mem :=
  mk_mem ((b, (sz, Alloc)) :: drop (live m) b) (fresh m).

Lemma find_fresh m : okm m -> find (live m) (fresh m) = None.
Proof.
  intros [_ H]. destruct (find (live m) (fresh m)) as [[s k]|] eqn:E; [|auto].
  apply H in E. lia.
Qed.

Lemma fresh_notin m : okm m -> ~ In (fresh m) (map fst (live m)).
Proof.
  intros K Hi. apply in_map_iff in Hi as [[b i] [E Hi]]. cbn in E. subst.
  apply (in_find _ _ _ (proj1 K)) in Hi. rewrite find_fresh in Hi by auto. discriminate.
Qed.

Lemma okm_ins m sz : okm m -> 0 <= sz <= ADDR_MAX -> okm (ins m sz).
Proof.
  intros K Hs. split; cbn.
  - constructor; [now apply fresh_notin|apply K].
  - intros b s k. destruct (Z.eqb_spec (fresh m) b).
    + intro E; injection E as <- <-. lia.
    + intro E. apply K in E. lia.
Qed.

Lemma okm_del m b : okm m -> okm (del m b).
Proof.
  intros K. split; cbn; [apply drop_nodup, K|].
  intros x s k. rewrite find_drop. destruct (b =? x); [discriminate|]. apply K.
Qed.

Lemma okm_stay m b sz s k : okm m -> find (live m) b = Some (s, k) -> 0 <= sz <= ADDR_MAX ->
  okm (stay m b sz).
Proof.
  intros K F Hs. split; cbn.
  - constructor; [|apply drop_nodup, K]. intro Hi. apply drop_keys in Hi. tauto.
  - intros x s' k'. destruct (Z.eqb_spec b x).
    + intro E; injection E as <- <-. subst. apply K in F. lia.
    + rewrite find_drop. destruct (Z.eqb_spec b x); [lia|]. apply K.
Qed.

Ltac fz :=
  repeat match goal with
  | H : context [?a =? ?b] |- _ => destruct (Z.eqb_spec a b); subst
  | |- context [?a =? ?b] => destruct (Z.eqb_spec a b); subst
  end.

Lemma frm_same m b : okm m -> frm m b m b.
Proof.
  intro K. split; [lia|]. split; [auto|]. split; [auto|].
  intros x s F. apply K in F. destruct b as [b|]; [|right; split; [congruence|lia]].
  destruct (Z.eq_dec b x); [left; congruence|right]. split; [congruence|lia].
Qed.

Lemma frm_new m sz : okm m -> frm m None (ins m sz) (Some (fresh m)).
Proof.
  intro K. unfold frm; cbn. split; [lia|]. split; [|split].
  - intros x _ Hx. destruct (Z.eqb_spec (fresh m) x); [lia|auto].
  - intros x E; injection E as <-. right; lia.
  - intros x s. destruct (Z.eqb_spec (fresh m) x).
    + left; congruence.
    + intro F. apply K in F. right; split; [congruence|lia].
Qed.

Lemma frm_free m b : okm m -> frm m (Some b) (del m b) None.
Proof.
  intro K. unfold frm; cbn. split; [lia|]. split; [|split].
  - intros x Hx _. rewrite find_drop. destruct (Z.eqb_spec b x); [congruence|auto].
  - discriminate.
  - intros x s. rewrite find_drop. destruct (Z.eqb_spec b x); [discriminate|].
    intro F. apply K in F. right; split; [congruence|lia].
Qed.

Lemma frm_moved m b sz : okm m -> frm m (Some b) (ins (del m b) sz) (Some (fresh m)).
Proof.
  intro K. unfold frm; cbn. split; [lia|]. split; [|split].
  - intros x Hx Hl. destruct (Z.eqb_spec (fresh m) x); [lia|]. rewrite find_drop.
    destruct (Z.eqb_spec b x); [congruence|auto].
  - intros x E; injection E as <-. right; lia.
  - intros x s. destruct (Z.eqb_spec (fresh m) x); [left; congruence|]. rewrite find_drop.
    destruct (Z.eqb_spec b x); [discriminate|].
    intro F. apply K in F. right; split; [congruence|lia].
Qed.

Lemma frm_stay m b sz : okm m -> frm m (Some b) (stay m b sz) (Some b).
Proof.
  intro K. unfold frm; cbn. split; [lia|]. split; [|split].
  - intros x Hx Hl. destruct (Z.eqb_spec b x); [congruence|]. rewrite find_drop.
    destruct (Z.eqb_spec b x); [congruence|auto].
  - auto.
  - intros x s. destruct (Z.eqb_spec b x); [left; congruence|]. rewrite find_drop.
    destruct (Z.eqb_spec b x); [discriminate|].
    intro F. apply K in F. right; split; [congruence|lia].
Qed.

Lemma frm_new_free m b sz : okm m -> b < fresh m ->
  frm m (Some b) (del (ins m sz) b) (Some (fresh m)).
Proof.
  intros K Hb. unfold frm; cbn [ins del live fresh]. split; [lia|]. split; [|split].
  - intros x Hx Hl. rewrite find_drop. cbn [find]. destruct (Z.eqb_spec b x); [congruence|].
    destruct (Z.eqb_spec (fresh m) x); [lia|auto].
  - intros x E; injection E as <-. right; lia.
  - intros x s. rewrite find_drop. cbn [find]. destruct (Z.eqb_spec b x); [discriminate|].
    destruct (Z.eqb_spec (fresh m) x); [left; congruence|].
    intro F. apply K in F. right; split; [congruence|lia].
Qed.

Lemma frm_tmp m b sz : okm m -> (forall x, b = Some x -> x < fresh m) ->
  frm m b (del (ins m sz) (fresh m)) b.
Proof.
  intros K Hb. unfold frm; cbn [ins del live fresh]. split; [lia|]. split; [|split].
  - intros x Hx Hl. rewrite find_drop. cbn [find].
    destruct (Z.eqb_spec (fresh m) x); [lia|auto].
  - auto.
  - intros x s. rewrite find_drop. cbn [find].
    destruct (Z.eqb_spec (fresh m) x); [discriminate|].
    intro F. apply K in F. destruct b as [b|]; [|right; split; [congruence|lia]].
    destruct (Z.eq_dec b x); [left; congruence|right]. split; [congruence|lia].
Qed.

(** ** Primitives *)

Lemma malloc_cases m sz a : 0 <= sz ->
  (malloc m sz a = (PNull, m)) \/
  (a <> Fail /\ sz <= ADDR_MAX /\ malloc m sz a = (PBlk (fresh m) 0, ins m sz)).
Proof.
  intro Hs. unfold malloc, ins. destruct a; [left; auto| |];
  destruct (Z.ltb_spec ADDR_MAX sz); auto; right; (split; [discriminate|]); auto.
Qed.

Lemma realloc_cases m b s sz a : find (live m) b = Some (s, Alloc) -> 0 < sz ->
  (realloc m (PBlk b 0) sz a = Ok (PNull, m)) \/
  (a <> Fail /\ sz <= ADDR_MAX /\
   realloc m (PBlk b 0) sz a = Ok (PBlk (fresh m) 0, ins (del m b) sz)) \/
  (a <> Fail /\ sz <= ADDR_MAX /\
   realloc m (PBlk b 0) sz a = Ok (PBlk b 0, stay m b sz)).
Proof.
  intros F Hs. unfold realloc. rewrite F. cbn [Z.eqb negb orb].
  destruct (Z.leb_spec sz 0); [lia|]. destruct (Z.ltb_spec ADDR_MAX sz); [auto|].
  destruct a; auto; right; [left|right]; (split; [discriminate|]); auto.
Qed.

Lemma free_ok m b s : find (live m) b = Some (s, Alloc) -> free m (PBlk b 0) = Ok (del m b).
Proof. intro F. unfold free. now rewrite F. Qed.

Lemma rd_ok m b off at_ n s k : find (live m) b = Some (s, k) ->
  0 <= n -> 0 <= off + at_ -> off + at_ + n <= s -> rd m (PBlk b off) at_ n = Ok tt.
Proof.
  intros F Hn H1 H2. unfold rd. destruct (Z.eqb_spec n 0); [auto|]. rewrite F.
  replace (0 <? n) with true by lia. replace (0 <=? off + at_) with true by lia.
  replace (off + at_ + n <=? s) with true by lia. reflexivity.
Qed.

Lemma wr_ok m b off at_ n s k : find (live m) b = Some (s, k) -> k <> Const ->
  0 <= n -> 0 <= off + at_ -> off + at_ + n <= s -> wr m (PBlk b off) at_ n = Ok tt.
Proof.
  intros F Hk Hn H1 H2. unfold wr. erewrite rd_ok by eauto. cbn [bind]. rewrite F.
  destruct (n =? 0); [auto|]. destruct k; congruence.
Qed.

Lemma rd_0 m p at_ : rd m p at_ 0 = Ok tt.
Proof. reflexivity. Qed.
Lemma wr_0 m p at_ : wr m p at_ 0 = Ok tt.
Proof. reflexivity. Qed.

(** * What a variable is like *)

Definition holds (m : mem) (p : ptr) (off n : Z) : Prop :=
  exists b s, p = PBlk b off /\ find (live m) b = Some (s, Alloc) /\ off + n <= s.

Definition wf (m : mem) (o : obj) : Prop :=
  match o with
  | ONone => True
  | OArr a =>
      0 < a_w a /\ 8 * a_w a < 2^64 /\ 0 <= a_size a <= a_cap a /\
      (a_elems a = PNull /\ a_cap a = 0 \/ holds m (a_elems a) 0 (a_cap a * a_w a) /\ 0 < a_cap a)
  | OHeap h =>
      0 <= h_size h < 2^64 /\ (h_bad h = false -> h_size h < h_cap h \/ h_size h = 0) /\
      (h_elems h = PNull /\ h_cap h = 0 \/ holds m (h_elems h) 0 (h_cap h * HW) /\ 0 < h_cap h)
  | OQueue q =>
      0 < q_w q /\ 8 * q_w q < 2^64 /\
      (q_elems q = PNull \/
       holds m (q_elems q) 0 (q_cap q * q_w q) /\ 0 < q_cap q /\
       0 <= q_first q < q_cap q /\ 0 <= q_last q < q_cap q)
  | OMap p =>
      0 < p_w p /\
      (exists e, p_empty p = PBlk e (p_w p) /\ find (live m) e = Some (2 * p_w p, Const)) /\
      (exists k, 0 <= k <= 31 /\ p_cap p = 2^k) /\
      (p_mem p = p_empty p /\ p_size p = 0 /\ p_used p = false /\ p_remap p = 0 /\ p_cap p = 1 \/
       holds m (p_mem p) (p_w p) (p_cap p * p_w p))
  | OBuf b =>
      0 <= b_r b <= b_pos b /\ b_pos b <= b_cap b /\ b_cap b <= ADDR_MAX /\
      (if b_ref b then
         exists x off s, b_mem b = PBlk x off /\ find (live m) x = Some (s, User) /\
           0 <= off /\ off + b_cap b <= s
       else b_mem b = PNull /\ b_cap b = 0 \/ holds m (b_mem b) 0 (b_cap b) /\ 0 < b_cap b)
  | OStr s => 0 <= s_len s < 2^32 /\ (s_ptr s = PNull \/ holds m (s_ptr s) SHDR (s_len s + 1))
  | OTimer t =>
      t_list t = PNull /\ t_wheel t = 0 \/
      holds m (t_list t) 0 (t_wheel t * 32 * TW) /\ 0 < t_wheel t <= SC_TIMER_MAX
  | OUri u => u = PNull \/ holds m u 0 0
  end.

(** A call that ends well. *)
Definition good (m : mem) (b : option Z) (r : res (obj * mem)) : Prop :=
  exists o' m', r = Ok (o', m') /\ okm m' /\ frm m b m' (owned o') /\ wf m' o'.

Lemma good_same m o o' : okm m -> owned o' = owned o -> wf m o' -> good m (owned o) (Ok (o', m)).
Proof.
  intros K E W. exists o', m. split; [auto|]. split; [auto|]. rewrite E. split; [|auto].
  now apply frm_same.
Qed.

Lemma good_same' m b o' : okm m -> owned o' = b -> wf m o' -> good m b (Ok (o', m)).
Proof. intros K <- W. now apply good_same. Qed.

Lemma good_intro m b o' m' : okm m' -> frm m b m' (owned o') -> wf m' o' -> good m b (Ok (o', m')).
Proof. intros. exists o', m'. auto. Qed.

Lemma holds_ins m sz off n : off + n <= sz -> 
  holds (ins m sz) (PBlk (fresh m) off) off n.
Proof. intro. exists (fresh m), sz. cbn. rewrite Z.eqb_refl. auto. Qed.

Lemma find_ins m sz b : b <> fresh m -> find (live (ins m sz)) b = find (live m) b.
Proof. intro. cbn. destruct (Z.eqb_spec (fresh m) b); [lia|auto]. Qed.
Lemma find_ins_same m sz : find (live (ins m sz)) (fresh m) = Some (sz, Alloc).
Proof. cbn. now rewrite Z.eqb_refl. Qed.
Lemma find_stay_same m b sz : find (live (stay m b sz)) b = Some (sz, Alloc).
Proof. cbn. now rewrite Z.eqb_refl. Qed.
Lemma find_del m b x : x <> b -> find (live (del m b)) x = find (live m) x.
Proof. intro. cbn. rewrite find_drop. destruct (Z.eqb_spec b x); [lia|auto]. Qed.

Lemma okm_lt m b s k : okm m -> find (live m) b = Some (s, k) -> b < fresh m /\ 0 <= s <= ADDR_MAX.
Proof. intros K. apply K. Qed.

(** The value of a bound. *)
Lemma addr_max : ADDR_MAX = 2^57. Proof. reflexivity. Qed.

(** * Array *)

Lemma arr_good m a c : okm m -> wf m (OArr a) -> allowed_op m (OArr a) c ->
  good m (owned (OArr a)) (apply (OArr a) c m).
Proof.
  intros K W A. pose proof W as (Hw & Hw8 & Hs & Hp).
  assert (Hcap : a_cap a * a_w a <= ADDR_MAX /\ 0 <= a_cap a <= ADDR_MAX).
  { destruct Hp as [[_ ->]|[(b & s & _ & F & Hb) Hc]].
    - rewrite addr_max. split; lia.
    - apply K in F. split; [lia|]. split; [lia|]. nia. }
  assert (Hsz : 0 <= a_size a * a_w a <= a_cap a * a_w a) by nia.
  rewrite addr_max in Hcap.
  destruct c; try (exfalso; exact A).
  - (* term *)
    cbn [apply term]. unfold wrap, arr_term.
    destruct Hp as [[E1 E2]|[(b & s & E1 & F & Hb) Hc]].
    + rewrite E1. cbn [free bind]. apply good_same'; [auto|cbn; now rewrite E1|].
      cbn. repeat split; auto; lia.
    + rewrite E1. erewrite free_ok by eauto. cbn [bind].
      apply good_intro; [now apply okm_del| |].
      * cbn [owned a_elems block]. rewrite E1. cbn [arr_init a_elems block]. now apply frm_free.
      * cbn. repeat split; auto; lia.
  - (* add *)
    cbn [apply]. unfold wrap, arr_add.
    destruct (Z.eqb_spec (a_cap a) (a_size a)) as [Es|Es].
    + destruct (Z.ltb_spec (SIZE_MAX / a_w a / 2) (a_cap a)) as [Hm|Hm].
      { cbn [bind]. apply good_same; auto. }
      set (c := if a_cap a =? 0 then 8 else u64 (a_cap a * 2)).
      assert (Hc : 0 < c /\ a_size a < c /\ c * a_w a < 2^64).
      { subst c. destruct (Z.eqb_spec (a_cap a) 0) as [E0|E0]; [lia|].
        rewrite u64_small by lia. split; [lia|]. split; [lia|]. lia. }
      cbv zeta. rewrite (u64_small (c * a_w a)) by nia.
      assert (Hcw : 0 < c * a_w a) by nia.
      assert (Hfit : a_size a * a_w a + a_w a <= c * a_w a) by nia.
      assert (Hup : u64 (a_size a + 1) = a_size a + 1) by (apply u64_small; lia).
      destruct Hp as [[E1 E2]|[(b & s & E1 & F & Hb) Hc1]].
      * rewrite E1. cbn [realloc].
        destruct (malloc_cases m (c * a_w a) ans) as [->|(_ & Hx & ->)]; [lia| |]; cbn [bind isnull].
        -- apply good_same; auto.
        -- erewrite wr_ok; [|apply find_ins_same|discriminate|lia|lia|lia]. cbn [bind].
           apply good_intro; [apply okm_ins; auto; lia| |].
           ++ cbn [owned a_elems block]. rewrite E1. now apply frm_new.
           ++ cbn [wf a_w a_cap a_size a_elems]. rewrite Hup.
              split; [lia|]. split; [lia|]. split; [lia|]. right. split; [|lia].
              apply holds_ins; lia.
      * rewrite E1. destruct (realloc_cases m b s (c * a_w a) ans F Hcw)
          as [->|[(_ & Hx & ->)|(_ & Hx & ->)]]; cbn [bind isnull].
        -- apply good_same; auto.
        -- erewrite wr_ok; [|apply (find_ins_same (del m b))|discriminate|lia|lia|lia]. cbn [bind].
           apply good_intro; [apply okm_ins; [now apply okm_del|lia]| |].
           ++ cbn [owned a_elems block]. rewrite E1. now apply frm_moved.
           ++ cbn [wf a_w a_cap a_size a_elems]. rewrite Hup.
              split; [lia|]. split; [lia|]. split; [lia|]. right. split; [|lia].
              apply (holds_ins (del m b)); lia.
        -- erewrite wr_ok; [|apply find_stay_same|discriminate|lia|lia|lia]. cbn [bind].
           apply good_intro; [eapply okm_stay; eauto; lia| |].
           ++ cbn [owned a_elems block]. rewrite E1. now apply frm_stay.
           ++ cbn [wf a_w a_cap a_size a_elems]. rewrite Hup.
              split; [lia|]. split; [lia|]. split; [lia|]. right. split; [|lia].
              exists b, (c * a_w a). split; [auto|]. split; [apply find_stay_same|lia].
    + assert (Hup : u64 (a_size a + 1) = a_size a + 1) by (apply u64_small; lia).
      destruct Hp as [[E1 E2]|[(b & s & E1 & F & Hb) Hc1]]; [lia|].
      assert (Hfit : a_size a * a_w a + a_w a <= a_cap a * a_w a) by nia.
      rewrite E1. erewrite wr_ok; [|exact F|discriminate|lia|lia|lia]. cbn [bind].
      apply good_same'; [auto|cbn; now rewrite E1|].
      cbn [wf a_w a_cap a_size a_elems]. rewrite Hup.
      split; [lia|]. split; [lia|]. split; [lia|]. right. split; [|lia]. exists b, s. auto.
  - (* del *)
    cbn [allowed_op] in A. cbn [apply]. unfold wrap, arr_del.
    destruct Hp as [[E1 E2]|[(b & s & E1 & F & Hb) Hc1]]; [lia|].
    rewrite (u64_small (a_size a - i - 1)) by lia. rewrite (u64_small (a_size a - 1)) by lia.
    cbv zeta. rewrite E1.
    erewrite rd_ok; [|exact F|nia|nia|nia]. cbn [bind].
    erewrite wr_ok; [|exact F|discriminate|nia|nia|nia]. cbn [bind].
    apply good_same'; [auto|cbn; now rewrite E1|].
    cbn [wf a_w a_cap a_size a_elems].
    split; [lia|]. split; [lia|]. split; [lia|]. right. split; [|lia]. exists b, s. auto.
  - cbn [allowed_op] in A. cbn [apply]. unfold wrap, arr_del_unordered.
    destruct Hp as [[E1 E2]|[(b & s & E1 & F & Hb) Hc1]]; [lia|].
    rewrite (u64_small (a_size a - 1)) by lia.
    cbv zeta. rewrite E1.
    erewrite rd_ok; [|exact F|nia|nia|nia]. cbn [bind].
    erewrite wr_ok; [|exact F|discriminate|nia|nia|nia]. cbn [bind].
    apply good_same'; [auto|cbn; now rewrite E1|].
    cbn [wf a_w a_cap a_size a_elems].
    split; [lia|]. split; [lia|]. split; [lia|]. right. split; [|lia]. exists b, s. auto.
  - cbn [allowed_op] in A. cbn [apply]. unfold wrap, arr_del_last. cbn [bind].
    apply good_same; auto. cbn [wf a_w a_cap a_size a_elems].
    rewrite (u64_small (a_size a - 1)) by lia.
    split; [lia|]. split; [lia|]. split; [lia|]. exact Hp.
  - cbn [apply]. unfold wrap, arr_clear. cbn [bind].
    apply good_same; auto. cbn [wf a_w a_cap a_size a_elems].
    split; [lia|]. split; [lia|]. split; [lia|]. exact Hp.
  - cbn [allowed_op] in A. cbn [apply]. unfold wrap, arr_at.
    destruct Hp as [[E1 E2]|[(b & s & E1 & F & Hb) Hc1]]; [lia|].
    rewrite E1. erewrite wr_ok; [|exact F|discriminate|nia|nia|nia]. cbn [bind].
    apply good_same; auto.
  - cbn [apply]. unfold wrap, arr_all.
    destruct Hp as [[E1 E2]|[(b & s & E1 & F & Hb) Hc1]].
    + replace (a_size a) with 0 by lia. rewrite Z.mul_0_l, wr_0. cbn [bind]. apply good_same; auto.
    + rewrite E1. erewrite wr_ok; [|exact F|discriminate|nia|nia|nia]. cbn [bind].
      apply good_same; auto.
Qed.

(** realloc of the block a variable owns. *)
Lemma re_cases m p sz a : okm m -> 0 < sz ->
  (p = PNull \/ exists b s, p = PBlk b 0 /\ find (live m) b = Some (s, Alloc)) ->
  realloc m p sz a = Ok (PNull, m) \/
  exists b' m', a <> Fail /\ realloc m p sz a = Ok (PBlk b' 0, m') /\ okm m' /\
    frm m (block p) m' (Some b') /\ find (live m') b' = Some (sz, Alloc) /\ sz <= ADDR_MAX.
Proof.
  intros K Hs [->|(b & s & -> & F)].
  - cbn [realloc]. destruct (malloc_cases m sz a) as [->|(Ha & Hx & ->)]; [lia|auto|].
    right. exists (fresh m), (ins m sz). split; [auto|]. split; [auto|].
    split; [apply okm_ins; auto; lia|]. split; [now apply frm_new|]. split; [|lia].
    apply find_ins_same.
  - destruct (realloc_cases m b s sz a F Hs) as [->|[(Ha & Hx & ->)|(Ha & Hx & ->)]]; [auto| |].
    + right. exists (fresh m), (ins (del m b) sz). split; [auto|]. split; [auto|].
      split; [apply okm_ins; [now apply okm_del|lia]|]. split; [now apply frm_moved|]. split; [|lia].
      apply (find_ins_same (del m b)).
    + right. exists b, (stay m b sz). split; [auto|]. split; [auto|].
      split; [eapply okm_stay; eauto; lia|]. split; [now apply frm_stay|]. split; [|lia].
      apply find_stay_same.
Qed.

(** A variable's pointer that is NULL or owns a block from its start. *)
Lemma holds_start m p n : holds m p 0 n -> exists b s, p = PBlk b 0 /\ find (live m) b = Some (s, Alloc).
Proof. intros (b & s & -> & F & _). eauto. Qed.

(** * Heap *)

Lemma heap_good m h c : okm m -> wf m (OHeap h) -> allowed_op m (OHeap h) c ->
  good m (owned (OHeap h)) (apply (OHeap h) c m).
Proof.
  intros K W A. pose proof W as (Hs & Hb & Hp).
  assert (Hcap : h_cap h * HW <= ADDR_MAX /\ 0 <= h_cap h).
  { destruct Hp as [[_ ->]|[(b & s & _ & F & Hx) Hc]].
    - rewrite addr_max. split; lia.
    - apply K in F. split; lia. }
  rewrite addr_max in Hcap. unfold HW in Hcap.
  destruct c; try (exfalso; exact A).
  - cbn [apply term]. unfold wrap, heap_term.
    destruct Hp as [[E1 E2]|[(b & s & E1 & F & Hx) Hc]].
    + rewrite E1. cbn [free bind]. apply good_same'; [auto|cbn; now rewrite E1|].
      cbn. split; [lia|]. auto.
    + rewrite E1. erewrite free_ok by eauto. cbn [bind].
      apply good_intro; [now apply okm_del| |].
      * cbn [owned h_elems block]. rewrite E1. now apply frm_free.
      * cbn. split; [lia|]. auto.
  - cbn [allowed_op] in A. specialize (Hb A). cbn [apply]. unfold wrap, heap_add.
    rewrite (u64_small (h_size h + 1)) by lia. cbv zeta.
    destruct (Z.leb_spec (h_cap h) (h_size h + 1)) as [Hl|Hl].
    + destruct (Z.leb_spec (SC_HEAP_MAX / 2) (h_cap h)) as [Hm|Hm].
      { cbn [bind]. apply good_same; auto. cbn. split; [lia|]. split; [discriminate|]. auto. }
      set (c := if h_cap h =? 0 then 4 else u64 (h_cap h * 2)).
      assert (Hc : h_size h + 1 < 2 * c /\ 0 < c /\ h_size h + 1 < c /\ c <= 2^55).
      { subst c. destruct (Z.eqb_spec (h_cap h) 0) as [E0|E0]; [lia|].
        rewrite u64_small by lia. lia. }
      rewrite (u64_small (c * 2 * HW)) by (unfold HW; lia).
      destruct (re_cases m (h_elems h) (c * 2 * HW) ans K) as
        [->|(b' & m' & _ & -> & K' & Fr & F & Hx)].
      { unfold HW; lia. }
      { destruct Hp as [[E1 E2]|[Hh Hc1]]; [auto|right; eapply holds_start; eauto]. }
      * cbn [bind isnull]. apply good_same; auto. cbn. split; [lia|]. split; [discriminate|]. auto.
      * cbn [bind isnull]. erewrite wr_ok; [|exact F|discriminate|unfold HW; lia..]. cbn [bind].
        apply good_intro; [auto|exact Fr|].
        cbn [wf h_size h_cap h_elems h_bad]. split; [lia|]. split; [lia|]. right. split; [|lia].
        exists b', (c * 2 * HW). split; [auto|]. split; [auto|unfold HW; lia].
    + destruct Hp as [[E1 E2]|[(b & s & E1 & F & Hx) Hc]]; [lia|]. unfold HW in Hx.
      rewrite E1. erewrite wr_ok; [|exact F|discriminate|unfold HW; lia..]. cbn [bind].
      apply good_same'; [auto|cbn; now rewrite E1|].
      cbn [wf h_size h_cap h_elems h_bad]. split; [lia|]. split; [lia|]. right. split; [|lia].
      exists b, s. unfold HW. auto.
  - cbn [allowed_op] in A. specialize (Hb A). cbn [apply]. unfold wrap, heap_pop.
    destruct (Z.eqb_spec (h_size h) 0) as [E0|E0]; [cbn [bind]; apply good_same; auto|].
    destruct Hp as [[E1 E2]|[(b & s & E1 & F & Hx) Hc]]; [lia|]. unfold HW in Hx.
    rewrite E1. erewrite wr_ok; [|exact F|discriminate|unfold HW; lia..]. cbn [bind].
    apply good_same'; [auto|cbn; now rewrite E1|].
    rewrite (u64_small (h_size h - 1)) by lia.
    cbn [wf h_size h_cap h_elems h_bad]. split; [lia|]. split; [lia|]. right. split; [|lia].
    exists b, s. unfold HW. auto.
  - cbn [allowed_op] in A. specialize (Hb A). cbn [apply]. unfold wrap, heap_peek.
    destruct (Z.eqb_spec (h_size h) 0) as [E0|E0]; [cbn [bind]; apply good_same; auto|].
    destruct Hp as [[E1 E2]|[(b & s & E1 & F & Hx) Hc]]; [lia|]. unfold HW in Hx.
    rewrite E1. erewrite rd_ok; [|exact F|unfold HW; lia..]. cbn [bind].
    apply good_same; auto.
  - cbn [apply]. unfold wrap, heap_clear. cbn [bind]. apply good_same; auto.
    cbn [wf h_size h_cap h_elems h_bad]. split; [lia|]. auto.
Qed.

(** * Queue *)

Lemma land_below x c : 0 <= x -> 0 < c -> 0 <= Z.land x (c - 1) < c.
Proof.
  intros Hx Hc. assert (0 <= Z.land x (c - 1)) by (apply Z.land_nonneg; lia). split; [auto|].
  assert (E : Z.ldiff (Z.land x (c - 1)) (c - 1) = 0).
  { apply Z.bits_inj'. intros n Hn. rewrite Z.ldiff_spec, Z.land_spec, Z.bits_0.
    destruct (Z.testbit x n), (Z.testbit (c - 1) n); reflexivity. }
  apply Z.sub_nocarry_ldiff in E.
  assert (0 <= Z.ldiff (c - 1) (Z.land x (c - 1))) by (apply Z.ldiff_nonneg; lia). lia.
Qed.

Lemma qmask_range q x : 0 < q_cap q < 2^64 -> 0 <= qmask q x < q_cap q.
Proof.
  intro H. unfold qmask. rewrite (u64_small (q_cap q - 1)) by lia.
  apply land_below; [apply u64_range|lia].
Qed.

Definition qwf (m : mem) (q : queue) : Prop :=
  holds m (q_elems q) 0 (q_cap q * q_w q) /\ 0 < q_cap q /\
  0 <= q_first q < q_cap q /\ 0 <= q_last q < q_cap q.

Lemma holds_max m p off n : okm m -> holds m p off n -> off + n <= ADDR_MAX.
Proof. intros K (b & s & _ & F & H). apply K in F. lia. Qed.

Lemma q_expand_ok m q ans : okm m -> 0 < q_w q -> qwf m q ->
  exists q' m', q_expand q ans m = Ok (q', m') /\ okm m' /\
    frm m (block (q_elems q)) m' (block (q_elems q')) /\ qwf m' q' /\ q_w q' = q_w q.
Proof.
  intros K Hw Q. pose proof Q as (Hh & Hc & Hf & Hl).
  pose proof (holds_max _ _ _ _ K Hh) as Hx. rewrite addr_max in Hx.
  assert (Hc2 : q_cap q <= 2^57) by nia.
  unfold q_expand. destruct (Z.eqb_spec (qmask q (q_last q + 1)) (q_first q)).
  2:{ exists q, m. split; [auto|]. split; [auto|]. split; [now apply frm_same|auto]. }
  destruct (Z.ltb_spec (SIZE_MAX / 2) (q_cap q)).
  { eexists _, m. split; [reflexivity|]. split; [auto|].
    split; [now apply frm_same|]. split; [|auto]. exact Q. }
  rewrite (u64_small (q_cap q * 2)) by lia. cbv zeta.
  destruct (malloc_cases m (q_cap q * 2 * q_w q) ans) as [->|(_ & Hz & ->)]; [nia| |]; cbn [isnull].
  { eexists _, m. split; [reflexivity|]. split; [auto|].
    split; [now apply frm_same|]. split; [|auto]. exact Q. }
  destruct Hh as (b & s & E1 & F & Hs). pose proof (okm_lt _ _ _ _ K F) as [Hb Hsz].
  rewrite addr_max in Hsz, Hz.
  rewrite (u64_small ((q_cap q - q_first q) * q_w q)) by nia.
  rewrite (u64_small (q_first q * q_w q)) by nia.
  rewrite (u64_small (q_cap q - 1)) by lia.
  set (m1 := ins m (q_cap q * 2 * q_w q)).
  assert (F1 : find (live m1) b = Some (s, Alloc)) by (subst m1; rewrite find_ins; [auto|lia]).
  rewrite E1.
  erewrite rd_ok; [|exact F1|nia..]. cbn [bind].
  erewrite wr_ok; [|apply find_ins_same|discriminate|nia..]. cbn [bind].
  erewrite rd_ok; [|exact F1|nia..]. cbn [bind].
  erewrite wr_ok; [|apply find_ins_same|discriminate|nia..]. cbn [bind].
  erewrite free_ok by exact F1. cbn [bind].
  eexists _, _. split; [reflexivity|]. split; [apply okm_del, okm_ins; [auto|rewrite addr_max; nia]|].
  cbn [q_elems block q_w q_cap]. split; [apply frm_new_free; auto|]. split; [|auto].
  split; [|cbn [q_cap q_first q_last]; lia].
  exists (fresh m), (q_cap q * 2 * q_w q). split; [auto|]. split; [|cbn [q_cap q_w]; lia].
  rewrite find_del by lia. apply find_ins_same.
Qed.

Lemma queue_good m q c : okm m -> wf m (OQueue q) -> allowed_op m (OQueue q) c ->
  good m (owned (OQueue q)) (apply (OQueue q) c m).
Proof.
  intros K W A. pose proof W as (Hw & Hw8 & Hp).
  assert (Q : q_elems q <> PNull -> qwf m q /\ 0 < q_cap q < 2^64).
  { intro N. destruct Hp as [E|Q]; [congruence|]. split; [exact Q|].
    destruct Q as (Hh & Hc & _). apply holds_max in Hh; [|auto]. rewrite addr_max in Hh. nia. }
  destruct c; try (exfalso; exact A).
  - cbn [apply term]. unfold wrap, q_term.
    destruct Hp as [E1|[(b & s & E1 & F & Hx) Hc]].
    + rewrite E1. cbn [free bind]. apply good_same'; [auto|cbn; now rewrite E1|].
      cbn. auto.
    + rewrite E1. erewrite free_ok by eauto. cbn [bind].
      apply good_intro; [now apply okm_del| |].
      * cbn [owned q_elems block]. rewrite E1. now apply frm_free.
      * cbn. auto.
  - destruct (Q A) as [Qw _]. cbn [apply]. unfold wrap, q_add_last.
    destruct (q_expand_ok m q ans K Hw Qw) as (q' & m' & -> & K' & Fr & (Hh & Hc & Hf & Hl) & Ew).
    cbn [bind]. assert (H64 : 0 < q_cap q' < 2^64).
    { apply holds_max in Hh; [|auto]. rewrite addr_max in Hh. nia. }
    pose proof Hh as (b & s & E1 & F & Hs).
    destruct (q_oom q'); cbn [bind].
    + apply good_intro; [auto|exact Fr|]. cbn [wf]. rewrite Ew. split; [lia|]. split; [lia|].
      right. rewrite <- Ew. auto.
    + rewrite E1. erewrite wr_ok; [|exact F|discriminate|nia..]. cbn [bind].
      apply good_intro; [auto|cbn [owned q_elems]; rewrite <- E1; exact Fr|].
      cbn [wf q_elems q_w q_cap q_first q_last]. split; [lia|]. split; [lia|].
      right. rewrite <- E1. split; [auto|]. split; [lia|]. split; [lia|]. now apply qmask_range.
  - destruct (Q A) as [Qw _]. cbn [apply]. unfold wrap, q_add_first.
    destruct (q_expand_ok m q ans K Hw Qw) as (q' & m' & -> & K' & Fr & (Hh & Hc & Hf & Hl) & Ew).
    cbn [bind]. assert (H64 : 0 < q_cap q' < 2^64).
    { apply holds_max in Hh; [|auto]. rewrite addr_max in Hh. nia. }
    pose proof Hh as (b & s & E1 & F & Hs).
    destruct (q_oom q'); cbn [bind].
    + apply good_intro; [auto|exact Fr|]. cbn [wf]. rewrite Ew. split; [lia|]. split; [lia|].
      right. rewrite <- Ew. auto.
    + pose proof (qmask_range q' (q_first q' - 1) H64) as Hm.
      cbv zeta. rewrite E1. erewrite wr_ok; [|exact F|discriminate|nia..]. cbn [bind].
      apply good_intro; [auto|cbn [owned q_elems]; rewrite <- E1; exact Fr|].
      cbn [wf q_elems q_w q_cap q_first q_last]. split; [lia|]. split; [lia|].
      right. rewrite <- E1. auto.
  - destruct (Q A) as [(Hh & Hc & Hf & Hl) H64]. cbn [apply]. unfold wrap, q_del_last.
    pose proof Hh as (b & s & E1 & F & Hs). pose proof (qmask_range q (q_last q - 1) H64) as Hm.
    cbv zeta. rewrite E1. erewrite rd_ok; [|exact F|nia..]. cbn [bind].
    apply good_same'; [auto|cbn; now rewrite E1|].
    cbn [wf q_elems q_w q_cap q_first q_last]. split; [lia|]. split; [lia|].
    right. rewrite <- E1. auto.
  - destruct (Q A) as [(Hh & Hc & Hf & Hl) H64]. cbn [apply]. unfold wrap, q_del_first.
    pose proof Hh as (b & s & E1 & F & Hs). pose proof (qmask_range q (q_first q + 1) H64) as Hm.
    cbv zeta. rewrite E1. erewrite rd_ok; [|exact F|nia..]. cbn [bind].
    apply good_same'; [auto|cbn; now rewrite E1|].
    cbn [wf q_elems q_w q_cap q_first q_last]. split; [lia|]. split; [lia|].
    right. rewrite <- E1. auto.
  - cbn [apply]. unfold wrap, q_clear. cbn [bind]. apply good_same; auto.
    cbn [wf q_elems q_w q_cap q_first q_last]. split; [lia|]. split; [lia|].
    destruct Hp as [|(Hh & Hc & _)]; [auto|right]. split; [auto|]. lia.
  - destruct A as [A _]. destruct (Q A) as [(Hh & Hc & Hf & Hl) H64]. cbn [apply]. unfold wrap, q_at.
    pose proof Hh as (b & s & E1 & F & Hs). pose proof (qmask_range q (q_first q + i) H64) as Hm.
    rewrite E1. erewrite wr_ok; [|exact F|discriminate|nia..]. cbn [bind].
    apply good_same; auto.
Qed.
