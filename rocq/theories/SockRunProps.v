(** Programs with any number of sockets. *)
From Coq Require Import Permutation String.
From Verif Require Import Base CStr IniModel StrSpec StrProofs IniProofs SockModel SockSpec SockProofs SockProps SockRunModel.
Local Open Scope string_scope.
Local Open Scope list_scope.
Local Open Scope Z_scope.

(** ** Specification *)

(** The descriptors the structures hold. *)
Definition open_fds (l : list sock) : list Z := filter (fun f => negb (f =? -1)) (map fd l).
(** The system hands out only descriptors that are not open ([o]: those open before). *)
Fixpoint fresh (o : list Z) (l : list act) : Prop :=
  match l with
  | [] => True
  | Opened f :: r => ~ In f o /\ fresh (f :: o) r
  | Closed f :: r => fresh (remove Z.eq_dec f o) r
  | _ :: r => fresh o r
  end.
(** The structure at [i] exists; it holds no descriptor. *)
Definition exists_sock (l : list sock) (i : nat) : Prop := exists s, nth_error l i = Some s.
Definition closed_sock (l : list sock) (i : nat) : Prop := exists s, nth_error l i = Some s /\ fd s = -1.
(** Some answer is not EINTR. *)
Definition answered (l : list transfer) : Prop := exists x, In x l /\ x <> inr EINTR.
(** The rules for callers: structures exist; listen, connect and accept get a structure that holds no
    descriptor; texts are terminated.  The rules for the system: descriptors are not
    negative, errors of getaddrinfo are not 0, a transfer is not interrupted forever. *)
Definition call_ok (l : list sock) (c : scall) : Prop :=
  match c with
  | CInit _ _ _ => True
  | CTerm i _ | CTimeo i _ _ | CFinish i _ _ => exists_sock l i
  | CListen i h a => closed_sock l i /\ (exists t r, h = t ++ 0 :: r /\ nonul t) /\ handed (l_socket a) /\
      (forall m, l_gai a = inr m -> entries_ok m) /\ (forall rc, l_gai a = inl rc -> rc <> 0)
  | CConnect i d _ a => closed_sock l i /\ (exists t r, d = t ++ 0 :: r /\ nonul t) /\ handed (c_socket a) /\
      (forall m, c_gai a = inr m -> entries_ok m) /\ (forall rc, c_gai a = inl rc -> rc <> 0)
  | CSend i len a | CRecv i len a => exists_sock l i /\ (0 < len -> answered a)
  | CAccept i j ac _ _ _ => i <> j /\ exists_sock l i /\ closed_sock l j /\ handed ac
  end.
(** Every call of the program obeys the rules when it is made. *)
Fixpoint program_ok (l : list sock) (y : sys) (p : list scall) : Prop :=
  match p with
  | [] => True
  | c :: p => call_ok l c /\ forall l' y', sock_call l y c = Ok (l', y') -> program_ok l' y' p
  end.

(** ** Lemmas *)

Lemma in_existsb f o : existsb (Z.eqb f) o = true <-> In f o.
Proof.
  rewrite existsb_exists. split.
  - intros (x & Hx & He). apply Z.eqb_eq in He. subst. exact Hx.
  - intro H. exists f. split; [exact H|apply Z.eqb_refl].
Qed.
Lemma fresh_app a : forall o b, fresh o (a ++ b) -> fresh o a /\ (forall o', live o a = Some o' -> fresh o' b).
Proof.
  induction a as [|x a IH]; intros o b H; cbn [app] in H.
  - split; [exact I|]. intros o' E. inversion E; subst. exact H.
  - destruct x as [| |i|fd0|fd0|g fl|g o2|pa|g to|g to|g]; cbn [fresh live] in *; try (apply IH; exact H).
    + destruct H as [H1 H2]. destruct (IH _ _ H2) as [I1 I2]. split; [auto|]. intros o' E.
      destruct (existsb (Z.eqb fd0) o); [discriminate|]. auto.
    + destruct (IH _ _ H) as [I1 I2]. split; [auto|]. intros o' E.
      destruct (existsb (Z.eqb fd0) o); [|discriminate]. auto.
Qed.
Lemma remove_app_own f o' o : ~ In f o -> remove Z.eq_dec f (o' ++ o) = remove Z.eq_dec f o' ++ o.
Proof. intro H. rewrite remove_app. f_equal. apply notin_remove. exact H. Qed.
(** What calls do on their own they also do when other descriptors are open. *)
Lemma live_frame tr : forall o' o1 o, live o' tr = Some o1 -> fresh (o' ++ o) tr -> (forall f, In f o' -> ~ In f o) ->
  live (o' ++ o) tr = Some (o1 ++ o).
Proof.
  induction tr as [|x tr IH]; intros o' o1 o H F D; cbn [live] in *; [inversion H; reflexivity|].
  destruct x as [| |i|fd0|fd0|g fl|g o2|pa|g to|g to|g]; cbn [fresh] in F; try (apply IH; assumption).
  - destruct F as [F1 F2]. destruct (existsb (Z.eqb fd0) o') eqn:E; [discriminate|].
    replace (existsb (Z.eqb fd0) (o' ++ o)) with false.
    2:{ symmetry. destruct (existsb (Z.eqb fd0) (o' ++ o)) eqn:E2; [|reflexivity]. apply in_existsb in E2. contradiction. }
    apply (IH (fd0 :: o') o1 o H F2). intros g [<-|Hg]; [|auto]. intro K. apply F1. apply in_or_app. now right.
  - destruct (existsb (Z.eqb fd0) o') eqn:E; [|discriminate]. apply in_existsb in E.
    replace (existsb (Z.eqb fd0) (o' ++ o)) with true by (symmetry; apply in_existsb, in_or_app; now left).
    rewrite remove_app_own in * by (apply D; exact E). apply IH; [exact H|exact F|].
    intros g Hg. apply D. apply in_remove in Hg. tauto.
Qed.
Lemma live_nodup tr : forall o o', NoDup o -> live o tr = Some o' -> NoDup o'.
Proof.
  induction tr as [|x tr IH]; intros o o' N H; cbn [live] in H; [inversion H; subst; exact N|].
  destruct x as [| |i|fd0|fd0|g fl|g o2|pa|g to|g to|g]; try (apply (IH o); assumption).
  - destruct (existsb (Z.eqb fd0) o) eqn:E; [discriminate|]. apply (IH (fd0 :: o)); [|exact H]. constructor; [|exact N].
    intro K. apply in_existsb in K. congruence.
  - destruct (existsb (Z.eqb fd0) o); [|discriminate]. apply (IH (remove Z.eq_dec fd0 o)); [|exact H].
    clear - N. induction o as [|a o IHo]; [constructor|]. inversion N; subst. cbn [remove]. destruct (Z.eq_dec fd0 a); [auto|].
    constructor; [|auto]. intro K. apply in_remove in K. tauto.
Qed.
Lemma remove_perm f : forall o r, NoDup o -> Permutation o (f :: r) -> Permutation (remove Z.eq_dec f o) r.
Proof.
  intros o r N P. pose proof (Permutation_NoDup P N) as N2. inversion N2; subst.
  assert (E : remove Z.eq_dec f (f :: r) = r) by (cbn [remove]; destruct (Z.eq_dec f f); [apply notin_remove; assumption|contradiction]).
  rewrite <- E. clear - P. induction P; cbn [remove].
  - constructor.
  - destruct (Z.eq_dec f x); [exact IHP|constructor; exact IHP].
  - destruct (Z.eq_dec f y), (Z.eq_dec f x); try apply Permutation_refl. apply perm_swap.
  - eapply Permutation_trans; eassumption.
Qed.

(** What one call does to the descriptors. *)
Inductive effect (l l' : list sock) (tr : list act) : Prop :=
| Keeps : live [] tr = Some [] -> Permutation (open_fds l') (open_fds l) -> effect l l' tr
| Opens f : live [] tr = Some [f] -> Permutation (open_fds l') (f :: open_fds l) -> effect l l' tr
| Closes f : tr = [Closed f] -> Permutation (open_fds l) (f :: open_fds l') -> effect l l' tr.

Lemma set_sock_split l i s0 : nth_error l i = Some s0 -> exists a b, l = a ++ s0 :: b /\ forall s, set_sock l i s = a ++ s :: b.
Proof.
  intro H. destruct (nth_error_split l i H) as (a & b & -> & <-). exists a, b. split; [reflexivity|]. intro s. unfold set_sock.
  rewrite firstn_app, Nat.sub_diag, firstn_all. cbn [firstn]. rewrite app_nil_r.
  rewrite (skipn_app (S (length a)) a). rewrite skipn_all2 by lia. replace (S (length a) - length a)%nat with 1%nat by lia. reflexivity.
Qed.
Lemma open_fds_mid a s b : open_fds (a ++ s :: b) = open_fds a ++ (if fd s =? -1 then [] else [fd s]) ++ open_fds b.
Proof. unfold open_fds. rewrite map_app, filter_app. cbn [map filter]. destruct (fd s =? -1); reflexivity. Qed.
(** A structure at [i] replaced. *)
Lemma set_open l i s0 s : nth_error l i = Some s0 ->
  (fd s = fd s0 -> open_fds (set_sock l i s) = open_fds l) /\
  (fd s0 = -1 -> 0 <= fd s -> Permutation (open_fds (set_sock l i s)) (fd s :: open_fds l)) /\
  (0 <= fd s0 -> fd s = -1 -> Permutation (open_fds l) (fd s0 :: open_fds (set_sock l i s))) /\
  (fd s = -1 \/ 0 <= fd s -> Forall (fun s => fd s = -1 \/ 0 <= fd s) l -> Forall (fun s => fd s = -1 \/ 0 <= fd s) (set_sock l i s)).
Proof.
  intro H. destruct (set_sock_split l i s0 H) as (a & b & -> & E). rewrite E, !open_fds_mid. repeat split.
  - intros ->. reflexivity.
  - intros -> Hp. cbn [Z.eqb]. replace (fd s =? -1) with false by lia. cbn [app]. symmetry. apply Permutation_middle.
  - intros Hp ->. cbn [Z.eqb]. replace (fd s0 =? -1) with false by lia. cbn [app]. symmetry. apply Permutation_middle.
  - intros Hs Hf. apply Forall_app in Hf. destruct Hf as [Ha Hb]. inversion Hb; subst. apply Forall_app. split; [exact Ha|]. constructor; assumption.
Qed.
Lemma set_nth_other l i j s : i <> j -> (i < length l)%nat -> nth_error (set_sock l i s) j = nth_error l j.
Proof.
  intros Hij Hi. unfold set_sock. destruct (Nat.lt_ge_cases j i) as [Hl|Hl].
  - rewrite nth_error_app1 by (rewrite firstn_length; lia). 
    rewrite <- (firstn_skipn i l) at 2. rewrite nth_error_app1 by (rewrite firstn_length; lia). reflexivity.
  - rewrite nth_error_app2 by (rewrite firstn_length; lia). rewrite firstn_length, Nat.min_l by lia.
    rewrite <- (firstn_skipn (S i) l) at 2. rewrite nth_error_app2 by (rewrite firstn_length; lia).
    rewrite firstn_length, Nat.min_l by lia. destruct (j - i)%nat as [|k] eqn:E; [lia|]. cbn [nth_error]. f_equal. lia.
Qed.

Lemma answered_split l : answered l -> exists pre x rest, l = pre ++ x :: rest /\ Forall (fun p => p = inr EINTR) pre /\ x <> inr EINTR.
Proof.
  intros (x & Hin & Hx). induction l as [|a l IH]; [destruct Hin|].
  assert (Hd : {a = inr EINTR} + {a <> inr EINTR}).
  { destruct a as [n|e]; [right; discriminate|]. destruct (Z.eq_dec e EINTR); [left; congruence|right; congruence]. }
  destruct Hd as [->|Hd].
  - destruct Hin as [<-|Hin]; [contradiction|]. destruct (IH Hin) as (pre & z & rest & -> & Hp & Hz).
    exists (inr EINTR :: pre), z, rest. split; [reflexivity|]. split; [constructor; auto|exact Hz].
  - exists [], a, l. split; [reflexivity|]. split; [constructor|exact Hd].
Qed.
Lemma transfer_keeps s y len a : (0 < len -> answered a) ->
  (exists s1 y1 n1, sock_send s y len a = Ok (s1, y1, n1) /\ acts y1 = acts y /\ fd s1 = fd s) /\
  (exists s1 y1 n1, sock_recv s y len a = Ok (s1, y1, n1) /\ acts y1 = acts y /\ fd s1 = fd s).
Proof.
  intro H. destruct (Z_lt_dec 0 len) as [Hl|Hl].
  - destruct (answered_split a (H Hl)) as (pre & x & rest & -> & Hp & Hx).
    destruct (sock_transfer s y len pre rest x Hp Hx) as [_ K].
    destruct (K Hl) as (s1 & y1 & n1 & s2 & y2 & n2 & E1 & E2 & A1 & A2 & F1 & F2 & _). split; eauto 10.
  - unfold sock_send, sock_recv. replace (len <=? 0) with true by lia. split; eauto 10.
Qed.

Definition fds_ok (l : list sock) : Prop := Forall (fun s => fd s = -1 \/ 0 <= fd s) l.

Lemma call_effect l y c : fds_ok l -> call_ok l c ->
  exists l' y' tr, sock_call l y c = Ok (l', y') /\ acts y' = acts y ++ tr /\ fds_ok l' /\ effect l l' tr.
Proof.
  intros Hf Hc. destruct c as [t b f|i e|i ms e|i h a|i d src a|i rc so|i len a|i len a|i j ac nd fc el]; cbn [call_ok sock_call] in *; unfold get_sock.
  - do 2 eexists. exists []. split; [reflexivity|]. split; [now rewrite app_nil_r|]. split.
    + apply Forall_app. split; [exact Hf|]. constructor; [left; reflexivity|constructor].
    + apply Keeps; [reflexivity|]. unfold open_fds. rewrite map_app, filter_app. cbn. rewrite app_nil_r. reflexivity.
  - destruct Hc as [s Hs]. rewrite Hs. cbn [or_ub bind].
    assert (Hd : fd s = -1 \/ 0 <= fd s) by (exact (proj1 (Forall_forall _ l) Hf s (nth_error_In _ _ Hs))).
    destruct (sock_term_resources s y e 0 Hd) as (s1 & y1 & rc1 & E & F & A & _). rewrite E.
    destruct (set_open l i s s1 Hs) as (S1 & S2 & S3 & S4).
    do 2 eexists. exists (if fd s =? -1 then [] else [Closed (fd s)]). split; [reflexivity|]. split; [exact A|]. split; [apply S4; [left; exact F|exact Hf]|].
    destruct (fd s =? -1) eqn:Ed.
    + apply Keeps; [reflexivity|]. rewrite S1 by lia. reflexivity.
    + eapply Closes; [reflexivity|]. apply S3; [lia|exact F].
  - destruct Hc as [s Hs]. rewrite Hs. cbn [or_ub bind].
    unfold set_timeo. set (s1 := if e =? 0 then s else errstr s (fails y e) 0).
    assert (Hd : fd s = -1 \/ 0 <= fd s) by (exact (proj1 (Forall_forall _ l) Hf s (nth_error_In _ _ Hs))).
    assert (F1 : fd s1 = fd s) by (unfold s1; destruct (e =? 0); reflexivity).
    destruct (set_open l i s s1 Hs) as (S1 & S2 & S3 & S4).
    exists (set_sock l i s1), (if e =? 0 then y else fails y e), []. split; [unfold s1; destruct (e =? 0); reflexivity|].
    split; [rewrite app_nil_r; destruct (e =? 0); reflexivity|]. split; [apply S4; [rewrite F1; exact Hd|exact Hf]|].
    apply Keeps; [reflexivity|]. rewrite S1 by exact F1. reflexivity.
  - destruct Hc as ((s & Hs & Hfd) & (t & r & -> & Ht) & H3 & H4 & H5). rewrite Hs. cbn [or_ub bind].
    destruct (sock_listen_resources s y t r a Hfd Ht H3 H4 H5) as (s' & y' & rc & tr & E & A & _ & D). rewrite E. cbn [bind].
    destruct (set_open l i s s' Hs) as (S1 & S2 & S3 & S4).
    do 2 eexists. exists tr. split; [reflexivity|]. split; [exact A|]. destruct D as [(_ & F & L & _)|(_ & F & L & _)].
    + split; [apply S4; [right; exact F|exact Hf]|]. eapply Opens; [exact L|]. apply S2; assumption.
    + split; [apply S4; [left; exact F|exact Hf]|]. apply Keeps; [exact L|]. rewrite S1 by congruence. reflexivity.
  - destruct Hc as ((s & Hs & Hfd) & (t & r & -> & Ht) & H3 & H4 & H5). rewrite Hs. cbn [or_ub bind].
    destruct (sock_connect_resources s y t r src a Hfd Ht H3 H4 H5) as (s' & y' & rc & tr & E & A & _ & D). rewrite E. cbn [bind].
    destruct (set_open l i s s' Hs) as (S1 & S2 & S3 & S4).
    do 2 eexists. exists tr. split; [reflexivity|]. split; [exact A|]. destruct D as [(_ & F & L & _)|[(_ & F & L & _)|(_ & _ & _ & F & L & _)]].
    + split; [apply S4; [right; exact F|exact Hf]|]. eapply Opens; [exact L|]. apply S2; assumption.
    + split; [apply S4; [left; exact F|exact Hf]|]. apply Keeps; [exact L|]. rewrite S1 by congruence. reflexivity.
    + split; [apply S4; [right; exact F|exact Hf]|]. eapply Opens; [exact L|]. apply S2; assumption.
  - destruct Hc as [s Hs]. rewrite Hs. cbn [or_ub bind].
    assert (Hd : fd s = -1 \/ 0 <= fd s) by (exact (proj1 (Forall_forall _ l) Hf s (nth_error_In _ _ Hs))).
    destruct (sock_finish_connect s y rc so) as (s' & y' & r & E & F & A & _). rewrite E.
    destruct (set_open l i s s' Hs) as (S1 & S2 & S3 & S4).
    do 2 eexists. exists []. split; [reflexivity|]. split; [now rewrite app_nil_r|]. split; [apply S4; [rewrite F; exact Hd|exact Hf]|].
    apply Keeps; [reflexivity|]. rewrite S1 by exact F. reflexivity.
  - destruct Hc as [[s Hs] Ha]. rewrite Hs. cbn [or_ub bind].
    assert (Hd : fd s = -1 \/ 0 <= fd s) by (exact (proj1 (Forall_forall _ l) Hf s (nth_error_In _ _ Hs))).
    destruct (transfer_keeps s y len a Ha) as [(s' & y' & n & E & A & F) _]. rewrite E. cbn [bind].
    destruct (set_open l i s s' Hs) as (S1 & S2 & S3 & S4).
    do 2 eexists. exists []. split; [reflexivity|]. split; [now rewrite app_nil_r|]. split; [apply S4; [rewrite F; exact Hd|exact Hf]|].
    apply Keeps; [reflexivity|]. rewrite S1 by exact F. reflexivity.
  - destruct Hc as [[s Hs] Ha]. rewrite Hs. cbn [or_ub bind].
    assert (Hd : fd s = -1 \/ 0 <= fd s) by (exact (proj1 (Forall_forall _ l) Hf s (nth_error_In _ _ Hs))).
    destruct (transfer_keeps s y len a Ha) as [_ (s' & y' & n & E & A & F)]. rewrite E. cbn [bind].
    destruct (set_open l i s s' Hs) as (S1 & S2 & S3 & S4).
    do 2 eexists. exists []. split; [reflexivity|]. split; [now rewrite app_nil_r|]. split; [apply S4; [rewrite F; exact Hd|exact Hf]|].
    apply Keeps; [reflexivity|]. rewrite S1 by exact F. reflexivity.
  - destruct Hc as (Hij & [s Hs] & (n & Hn & Hfd) & Hac). rewrite (proj2 (Nat.eqb_neq i j) Hij). rewrite Hs, Hn. cbn [or_ub bind].
    assert (Hd : fd s = -1 \/ 0 <= fd s) by (exact (proj1 (Forall_forall _ l) Hf s (nth_error_In _ _ Hs))).
    destruct (sock_accept_resources s n y ac nd fc el Hac Hfd) as (s' & n' & y' & rc & tr & E & A & F & D). rewrite E.
    destruct (set_open l i s s' Hs) as (S1 & S2 & S3 & S4).
    assert (Hil : (i < length l)%nat) by (apply nth_error_Some; congruence).
    assert (Hn' : nth_error (set_sock l i s') j = Some n) by (rewrite set_nth_other by assumption; exact Hn).
    destruct (set_open (set_sock l i s') j n n' Hn') as (T1 & T2 & T3 & T4).
    assert (Hf1 : fds_ok (set_sock l i s')) by (apply S4; [rewrite F; exact Hd|exact Hf]).
    do 2 eexists. exists tr. split; [reflexivity|]. split; [exact A|]. destruct D as [(_ & F2 & L & _)|(_ & F2 & L & _)].
    + split; [apply T4; [right; exact F2|exact Hf1]|]. eapply Opens; [exact L|]. rewrite <- (S1 F). apply T2; assumption.
    + split; [apply T4; [left; exact F2|exact Hf1]|]. apply Keeps; [exact L|]. rewrite T1, S1 by congruence. reflexivity.
Qed.

(** ** C145 *)

Lemma sock_run_ok p : forall l y, fds_ok l -> program_ok l y p ->
  (fresh [] (acts y) -> exists o, live [] (acts y) = Some o /\ Permutation o (open_fds l)) ->
  exists l' y', sock_run l y p = Ok (l', y') /\ fds_ok l' /\
    (fresh [] (acts y') -> exists o, live [] (acts y') = Some o /\ Permutation o (open_fds l')).
Proof.
  induction p as [|c p IH]; intros l y Hf Hp Hi; cbn [sock_run program_ok] in *.
  - eauto 10.
  - destruct Hp as [Hc Hp]. destruct (call_effect l y c Hf Hc) as (l' & y' & tr & E & A & Hf' & Ef). rewrite E. cbn [bind].
    apply IH; [exact Hf'|apply Hp; exact E|].
    rewrite A. intro Fr. destruct (fresh_app _ _ _ Fr) as [Fr1 Fr2]. destruct (Hi Fr1) as (o & Lo & Po).
    specialize (Fr2 o Lo). rewrite live_app, Lo.
    assert (No : NoDup o) by (apply (live_nodup (acts y) [] o); [constructor|exact Lo]).
    destruct Ef as [L P|f L P|f -> P].
    + exists o. split; [apply (live_frame tr [] [] o L Fr2); intros g []|]. rewrite P. exact Po.
    + exists (f :: o). split; [apply (live_frame tr [] [f] o L Fr2); intros g []|]. rewrite P. constructor. exact Po.
    + exists (remove Z.eq_dec f o). assert (P2 : Permutation o (f :: open_fds l')) by (rewrite Po; exact P). split.
      * cbn [live]. replace (existsb (Z.eqb f) o) with true; [reflexivity|]. symmetry. apply in_existsb.
        apply (Permutation_in f (Permutation_sym P2)). now left.
      * apply remove_perm; assumption.
Qed.

(** A program that follows the rules, whatever the system answers: no descriptor is closed twice or closed
    by anyone but its owner, and the open descriptors are those the structures hold, each held by
    one structure.  Missing: calls of listen, connect and accept with a structure that already
    holds a descriptor, for which it is false (sock_programs_refuted). *)
Theorem sock_programs_partial p : program_ok [] start p ->
  exists l y, sock_run [] start p = Ok (l, y) /\
  (fresh [] (acts y) -> exists o, live [] (acts y) = Some o /\ Permutation o (open_fds l)).
Proof.
  intro Hp. destruct (sock_run_ok p [] start ltac:(constructor) Hp) as (l & y & E & _ & H); [|eauto].
  intros _. exists []. split; [reflexivity|constructor].
Qed.
Print Assumptions sock_programs_partial.

(** In particular nothing stays open once every structure has been terminated. *)
Theorem sock_programs_end p : program_ok [] start p ->
  exists l y, sock_run [] start p = Ok (l, y) /\
  (fresh [] (acts y) -> (forall s, In s l -> fd s = -1) -> live [] (acts y) = Some []).
Proof.
  intro Hp. destruct (sock_programs_partial p Hp) as (l & y & E & H). exists l, y. split; [exact E|]. intros Fr Ht.
  destruct (H Fr) as (o & Lo & Po).
  assert (En : open_fds l = []).
  { unfold open_fds. clear - Ht. induction l as [|s l IH]; [reflexivity|]. cbn [map filter]. rewrite (Ht s) by now left. cbn. apply IH. intros; apply Ht; now right. }
  rewrite En in Po. apply Permutation_sym, Permutation_nil in Po. subst o. exact Lo.
Qed.
Print Assumptions sock_programs_end.

(** A server and a client: the server listens (on 3), the client connects (4), the server accepts (5), bytes
    are sent, the client is terminated and connects again (the system gives 4 again), all are
    terminated. *)
Definition ex_program : list scall :=
  [CInit 0 true AF_INET; CInit 0 true AF_INET; CInit 0 true AF_INET;
   CListen 0 (text "h" ++ [0]) (mk_listens (inr [addr AF_INET "h" (inl 3) 0]) (inr 1) 0 0 0 0 0);
   CConnect 1 (text "h" ++ [0]) false (mk_connects (inr 1) 0 0 (inr [addr AF_INET "h" (inl 4) 0]) 0);
   CAccept 0 2 (inl 5) 0 ok_fcntl 0; CSend 1 10 [inr EINTR; inl 10]; CRecv 2 10 [inl 10];
   CTerm 1 0;
   CConnect 1 (text "h" ++ [0]) false (mk_connects (inr 1) 0 0 (inr [addr AF_INET "h" (inl 4) 0]) 0);
   CTerm 0 0; CTerm 1 0; CTerm 2 0].
Lemma ex_host : exists t r, text "h" ++ [0] = t ++ 0 :: r /\ nonul t.
Proof. exists (text "h"), []. split; [reflexivity|]. intros [E|[]]. vm_compute in E. discriminate E. Qed.
Lemma ex_gai f : 0 <= f -> (forall m, @inr Z (list entry) [addr AF_INET "h" (inl f) 0] = inr m -> entries_ok m) /\
  (forall rc, @inr Z (list entry) [addr AF_INET "h" (inl f) 0] = inl rc -> rc <> 0).
Proof.
  intro Hf. split; [|discriminate]. intros m E. inversion E. constructor; [|constructor]. intros g Eg. inversion Eg; subst. exact Hf.
Qed.
Lemma handed_ok f : 0 <= f -> handed (inl f).
Proof. intros Hf g E. inversion E; subst. exact Hf. Qed.
Lemma handed_no e : handed (inr e).
Proof. intros g E. discriminate. Qed.
Ltac ex_call :=
  match goal with
  | |- closed_sock _ _ => eexists; split; reflexivity
  | |- exists_sock _ _ => eexists; reflexivity
  | |- exists t r, _ => exact ex_host
  | |- handed (inr _) => apply handed_no
  | |- handed (inl _) => apply handed_ok; lia
  | |- answered _ => eexists; split; [cbn; eauto|discriminate]
  | |- _ /\ _ => first [apply ex_gai; lia | split]
  | |- _ <> _ => discriminate
  | |- True => exact I
  | |- _ < _ -> _ => intro
  end.
Example sock_programs_ex :
  program_ok [] start ex_program /\
  exists l y, sock_run [] start ex_program = Ok (l, y) /\ fresh [] (acts y) /\ (forall s, In s l -> fd s = -1).
Proof.
  split.
  - unfold ex_program. repeat (cbn [program_ok]; split; [cbn [call_ok l_gai l_socket c_gai c_socket]; repeat ex_call|
      let E := fresh in intros ? ? E; vm_compute in E; inversion E; subst; clear E]). exact I.
  - do 2 eexists. split; [vm_compute; reflexivity|]. split.
    + cbn. repeat (split || intro); repeat match goal with H : _ \/ _ |- _ => destruct H | H : False |- _ => destruct H end; try discriminate; exact I.
    + cbn. intuition (subst; reflexivity).
Qed.

(** A structure that is connected again, or listens, without being terminated first: the old descriptor is
    lost. *)
Theorem sock_programs_refuted : exists p l y, sock_run [] start p = Ok (l, y) /\ fresh [] (acts y) /\
  (forall s, In s l -> fd s = -1) /\ live [] (acts y) = Some [4].
Proof.
  exists [CInit 0 true AF_INET;
   CConnect 0 (text "h" ++ [0]) false (mk_connects (inr 1) 0 0 (inr [addr AF_INET "h" (inl 4) 0]) 0);
   CConnect 0 (text "h" ++ [0]) false (mk_connects (inr 1) 0 0 (inr [addr AF_INET "h" (inl 5) 0]) 0);
   CTerm 0 0].
  do 2 eexists. split; [vm_compute; reflexivity|]. split; [|split].
  - cbn. repeat (split || intro); repeat match goal with H : _ \/ _ |- _ => destruct H | H : False |- _ => destruct H end; try discriminate; exact I.
  - cbn. intuition (subst; reflexivity).
  - reflexivity.
Qed.
Print Assumptions sock_programs_refuted.
