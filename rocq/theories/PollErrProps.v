(** C134: the error messages of the poller and of the pipe. *)
From Coq Require Import String Ascii.
From Verif Require Import Base SockModel PollModel PollErrModel.
Local Open Scope string_scope.
Local Open Scope Z_scope.

(** The error of the first answer that is not an interruption (EINTR, 4). *)
Definition final_error (l : list (Z + Z)) : Z :=
  match find (fun x => match x with inr e => negb (e =? 4) | inl _ => true end) l with Some (inr e) => e | _ => 0 end.
(** What the message of a failing call should say. *)
Definition why (strerror : Z -> list Z) (c : pcall) : list Z :=
  (match c with
  | CInit false _ => strerror 12
  | CInit true (inr e) => strerror e
  | CInit true (inl _) => []
  | CTerm _ e => strerror e
  | CAdd _ _ _ _ _ e | CDel _ _ _ _ _ e => bytes "epoll_ctl : " ++ strerror e ++ [32]
  | KAddC _ _ _ _ _ e | KDelC _ _ _ _ _ e => bytes "kevent : " ++ strerror e ++ [32]
  | CWait bsd true l => bytes (if bsd then "kevent : " else "epoll_wait : ") ++ strerror (final_error l) ++ [32]
  | CWait _ false _ => bytes "poll : sc_sock_poll is not initialized or already terminated"
  end)%list.
(** What thread [u] should read after the calls [l] with their results: the message of its last call that failed, cut to 127 bytes. *)
Fixpoint heard (strerror : Z -> list Z) (u : Z) (old : list Z) (l : list (Z * pcall)) (rcs : list Z) : list Z :=
  match l, rcs with
  | (t, c) :: l, rc :: rcs => heard strerror u (if (t =? u) && (rc <? 0) then firstn 127 (why strerror c) else old) l rcs
  | _, _ => old
  end.
(** The system's messages are texts without NUL and without percent signs. *)
Definition plain (strerror : Z -> list Z) : Prop := forall e, ~ In 0 (strerror e) /\ ~ In 37 (strerror e).
(** epoll_wait and kevent report counts. *)
Definition counts (c : pcall) : Prop := match c with CWait _ _ l => forall n, In (inl n) l -> 0 <= n | _ => True end.
(** A buffer with the message [m]. *)
Definition holds (b m : list Z) : Prop := length b = 128%nat /\ zget b 127 = Some 0 /\ read_msg b = Ok m.

Lemma last_final l : last_error l = final_error l.
Proof.
  unfold final_error. induction l as [|[n|e] l IH]; cbn [last_error find]; [reflexivity..|].
  unfold EINTR. destruct (e =? 4); [exact IH|reflexivity].
Qed.
Lemma expand_plain s : ~ In 37 s -> forall r args, expand (s ++ r) args = let* x := expand r args in Ok (s ++ x)%list.
Proof.
  induction s as [|c s IH]; intros H r args; cbn [app].
  - destruct (expand r args); reflexivity.
  - assert (Hc : c <> 37) by (intro; apply H; now left). assert (Hs : ~ In 37 s) by (intro; apply H; now right).
    specialize (IH Hs r args). transitivity (let* x := expand (s ++ r) args in Ok (c :: x)).
    + cbn [expand]. destruct c as [|p|p]; try reflexivity. do 6 (destruct p as [p|p|]; try reflexivity). now destruct Hc.
    + rewrite IH. destruct (expand r args); reflexivity.
Qed.
Lemma read_stop s r : ~ In 0 s -> read_msg (s ++ 0 :: r) = Ok s.
Proof.
  induction s as [|c s IH]; intro H; cbn [app read_msg]; [reflexivity|]. destruct (Z.eqb_spec c 0) as [->|]; [destruct H; now left|].
  rewrite IH; [reflexivity|]. intro; apply H; now right.
Qed.
Lemma in_firstn {A} (x : A) n l : In x (firstn n l) -> In x l.
Proof. intro H. rewrite <- (firstn_skipn n l). apply in_or_app. now left. Qed.
Lemma set_msg_ok b fmt args s : length b = 128%nat -> expand fmt args = Ok s -> ~ In 0 s ->
  exists b', set_msg b fmt args = Ok b' /\ holds b' (firstn 127 s).
Proof.
  intros Hb He H0. unfold set_msg. rewrite He. cbn [bind].
  pose proof (firstn_le_length 127 s) as Hl. set (t := firstn 127 s) in *.
  assert (Ht : ~ In 0 t) by (intro; apply H0; eapply in_firstn; eassumption). clearbody t.
  set (m := (t ++ [0] ++ skipn (length t + 1) b)%list).
  assert (Hm : length m = 128%nat) by (unfold m; rewrite !app_length, skipn_length; cbn [length]; lia).
  assert (P : zput m 127 0 = Ok (zset m 127 0)) by (unfold zput; rewrite (proj2 (Z.leb_le _ _)) by lia; unfold zlen; rewrite Hm; reflexivity).
  rewrite P. eexists; split; [reflexivity|].
  assert (L : exists m1 x, m = (m1 ++ [x])%list /\ length m1 = 127%nat).
  { exists (firstn 127 m). destruct (skipn 127 m) as [|x [|y r]] eqn:E.
    - apply (f_equal (@length Z)) in E. rewrite skipn_length, Hm in E. discriminate.
    - exists x. rewrite <- E, firstn_skipn. split; [reflexivity|]. rewrite firstn_length. lia.
    - apply (f_equal (@length Z)) in E. rewrite skipn_length, Hm in E. discriminate. }
  destruct L as (m1 & x & Em & L1).
  assert (Z1 : zset m 127 0 = (m1 ++ [0])%list).
  { rewrite Em. unfold zset. change (127 <? 0) with false. cbv iota. change (Z.to_nat 127) with 127%nat. rewrite <- L1. clear. induction m1 as [|y m1 IH]; cbn; [reflexivity|]. now rewrite IH. }
  rewrite Z1. split; [rewrite app_length, L1; reflexivity|]. split.
  - unfold zget. cbn [Z.ltb]. change (Z.to_nat 127) with 127%nat. rewrite nth_error_app2 by lia. rewrite L1. reflexivity.
  - unfold m in Em. destruct (Nat.eq_dec (length t) 127) as [E127|N].
    + assert (m1 = t).
      { apply (f_equal (firstn 127)) in Em. rewrite !firstn_app, E127, L1 in Em. rewrite Nat.sub_diag, !firstn_O, !app_nil_r in Em.
        rewrite !firstn_all2 in Em by lia. now symmetry. }
      subst m1. now apply read_stop.
    + assert (E1 : exists r, m1 = (t ++ 0 :: r)%list).
      { exists (firstn (127 - length t - 1) (skipn (length t + 1) b)). apply (f_equal (firstn 127)) in Em. rewrite !firstn_app in Em.
        rewrite L1, Nat.sub_diag, firstn_O, app_nil_r in Em. rewrite (firstn_all2 m1), (firstn_all2 t) in Em by lia.
        destruct (127 - length t)%nat as [|k] eqn:Ek; [lia|]. cbn [firstn length app] in Em. rewrite firstn_nil in Em. cbn [app] in Em.
        replace (S k - 1)%nat with k in Em |- * by lia. now symmetry. }
      destruct E1 as [r ->]. rewrite <- app_assoc. cbn [app]. now apply read_stop.
Qed.

Lemma plain_app s : ~ In 37 s -> forall args, expand s args = Ok s.
Proof. intros H args. rewrite <- (app_nil_r s) at 1. rewrite expand_plain by assumption. cbn [expand bind]. now rewrite app_nil_r. Qed.
Lemma expand_prefix pre a : ~ In 37 pre -> expand (pre ++ [37; 115; 32]) [a] = Ok (pre ++ a ++ [32])%list.
Proof. intro H. rewrite expand_plain by assumption. cbn [expand bind]. reflexivity. Qed.
Lemma set_prefix b pre a : length b = 128%nat -> ~ In 37 pre -> ~ In 0 pre -> ~ In 0 a ->
  exists b', set_msg b (pre ++ [37; 115; 32]) [a] = Ok b' /\ holds b' (firstn 127 (pre ++ a ++ [32])).
Proof.
  intros Hb H37 H0 Ha. eapply set_msg_ok; [assumption|now apply expand_prefix|]. intro H. rewrite !in_app_iff in H.
  destruct H as [H|[H|[H|[]]]]; [tauto|tauto|discriminate].
Qed.
Ltac absent := let H := fresh in intro H; cbn in H; repeat (destruct H as [H|H]; [discriminate|]); exact H.
(** One call: it fails exactly if the message changes hands, and nothing else is touched. *)
Lemma perr_ok strerror b t c : plain strerror -> (forall u, length (b u) = 128%nat) -> counts c ->
  perr strerror b t c <> UB /\
  forall b' rc, perr strerror b t c = Ok (b', rc) ->
    (forall u, u <> t -> b' u = b u) /\ (if rc <? 0 then holds (b' t) (firstn 127 (why strerror c)) else b' t = b t).
Proof.
  intros Hp Hb Hc.
  assert (S1 : forall e (rc : Z), exists b1, poll_set_err b t (strerror e) [] = Ok b1 /\ (forall u, u <> t -> b1 u = b u) /\ holds (b1 t) (firstn 127 (strerror e))).
  { intros e rc. destruct (Hp e) as [H0 H37]. destruct (set_msg_ok (b t) (strerror e) [] (strerror e) (Hb t) (plain_app _ H37 _) H0) as (m & Hm & Hh).
    unfold poll_set_err. rewrite Hm. cbn [bind]. eexists; split; [reflexivity|]. split; [intros u Hu|]; cbv beta; [destruct (Z.eqb_spec u t); [contradiction|reflexivity]|].
    now rewrite Z.eqb_refl. }
  assert (S2 : forall pre e, ~ In 37 pre -> ~ In 0 pre -> exists b1, poll_set_err b t (pre ++ [37; 115; 32])%list [strerror e] = Ok b1 /\ (forall u, u <> t -> b1 u = b u) /\
    holds (b1 t) (firstn 127 (pre ++ strerror e ++ [32]))).
  { intros pre e H37 H0. destruct (set_prefix (b t) pre (strerror e) (Hb t) H37 H0 (proj1 (Hp e))) as (m & Hm & Hh).
    unfold poll_set_err. rewrite Hm. cbn [bind]. eexists; split; [reflexivity|]. split; [intros u Hu|]; cbv beta; [destruct (Z.eqb_spec u t); [contradiction|reflexivity]|].
    now rewrite Z.eqb_refl. }
  assert (S3 : exists b1, poll_set_err b t (bytes "poll : sc_sock_poll is not initialized or already terminated") [] = Ok b1 /\ (forall u, u <> t -> b1 u = b u) /\
    holds (b1 t) (firstn 127 (bytes "poll : sc_sock_poll is not initialized or already terminated"))).
  { edestruct (set_msg_ok (b t) (bytes "poll : sc_sock_poll is not initialized or already terminated") []) as (m & Hm & Hh); [apply Hb|vm_compute; reflexivity|absent|].
    unfold poll_set_err. rewrite Hm. cbn [bind]. eexists; split; [reflexivity|]. split; [intros u Hu|]; cbv beta; [destruct (Z.eqb_spec u t); [contradiction|reflexivity]|].
    now rewrite Z.eqb_refl. }
  assert (G : forall (r : res (bufs * Z)) m, (exists b1, r = Ok (b1, -1) /\ (forall u, u <> t -> b1 u = b u) /\ holds (b1 t) m) ->
    r <> UB /\ forall b' rc, r = Ok (b', rc) -> (forall u, u <> t -> b' u = b u) /\ (if rc <? 0 then holds (b' t) m else b' t = b t)).
  { intros r m (b1 & -> & H1 & H2). split; [discriminate|]. intros b' rc H. injection H as <- <-. auto. }
  assert (N : forall n m, 0 <= n -> @Ok (bufs * Z) (b, n) <> UB /\ forall b' rc, @Ok (bufs * Z) (b, n) = Ok (b', rc) -> (forall u, u <> t -> b' u = b u) /\ (if rc <? 0 then holds (b' t) m else b' t = b t)).
  { intros n m Hn. split; [discriminate|]. intros b' rc H. injection H as <- <-. replace (n <? 0) with false by lia. auto. }
  assert (A : forall e, exists b1, (let* b := poll_set_err b t (bytes "epoll_ctl : %s ") [strerror e] in Ok (b, -1)) = Ok (b1, -1) /\ (forall u, u <> t -> b1 u = b u) /\
    holds (b1 t) (firstn 127 (bytes "epoll_ctl : " ++ strerror e ++ [32]))).
  { intro e. change (bytes "epoll_ctl : %s ") with (bytes "epoll_ctl : " ++ [37; 115; 32])%list. destruct (S2 (bytes "epoll_ctl : ") e) as (b1 & -> & H); [absent|absent|]. exists b1. auto. }
  assert (K : forall e, exists b1, (let* b := poll_set_err b t (bytes "kevent : %s ") [strerror e] in Ok (b, -1)) = Ok (b1, -1) /\ (forall u, u <> t -> b1 u = b u) /\
    holds (b1 t) (firstn 127 (bytes "kevent : " ++ strerror e ++ [32]))).
  { intro e. change (bytes "kevent : %s ") with (bytes "kevent : " ++ [37; 115; 32])%list. destruct (S2 (bytes "kevent : ") e) as (b1 & -> & H); [absent|absent|]. exists b1. auto. }
  destruct c as [mem cr|p e|k f ev d e errno|k f ev d e errno|k f ev d ok errno|k f ev d ok errno|bsd events l]; cbn [perr].
  - unfold poll_init. destruct mem; cbn [negb]; [destruct cr as [f|e]|]; cbn [Z.eqb why]; [now apply N| |];
      apply G; (match goal with |- context [strerror ?e] => destruct (S1 e 0) as (b1 & -> & H) end); exists b1; auto.
  - unfold poll_term. destruct (pevents p); cbn [negb Z.eqb]; [|now apply N]. destruct (e =? 0); cbn [Z.eqb why]; [now apply N|].
    apply G. destruct (S1 e 0) as (b1 & -> & H). exists b1. auto.
  - assert (R : let '(_, _, rc, _) := poll_add k f ev d e in rc = 0 \/ rc = -1).
    { unfold poll_add. cbv zeta. match goal with |- context [top f =? ?x] => destruct (top f =? x); [auto|] end. destruct (epoll_ctl _ _ _ _ _ _) as [? rc]. destruct (rc =? 0); cbn [negb]; auto. }
    destruct (poll_add k f ev d e) as [[[? ?] rc] ?]. destruct R as [-> | ->]; cbn [Z.eqb]; [now apply N|]. apply G, A.
  - assert (R : let '(_, _, rc, _) := poll_del k f ev d e in rc = 0 \/ rc = -1).
    { unfold poll_del. cbv zeta. match goal with |- context [top f =? ?x] => destruct (top f =? x); [auto|] end. destruct (epoll_ctl _ _ _ _ _ _) as [? rc]. destruct (rc =? 0); cbn [negb]; auto. }
    destruct (poll_del k f ev d e) as [[[? ?] rc] ?]. destruct R as [-> | ->]; cbn [Z.eqb]; [now apply N|]. apply G, A.
  - assert (R : let '(_, _, rc, _) := kq_add k f ev d ok in rc = 0 \/ rc = -1).
    { unfold kq_add. cbv zeta. match goal with |- context [top f =? ?x] => destruct (top f =? x); [auto|] end. destruct (kevent _ _ _) as [? rc]. destruct (rc =? 0); cbn [negb]; auto. }
    destruct (kq_add k f ev d ok) as [[[? ?] rc] ?]. destruct R as [-> | ->]; cbn [Z.eqb]; [now apply N|]. apply G, K.
  - assert (R : let '(_, _, rc, _) := kq_del k f ev d ok in rc = 0 \/ rc = -1).
    { unfold kq_del. cbv zeta. match goal with |- context [top f =? ?x] => destruct (top f =? x); [auto|] end. destruct (kevent _ _ _) as [? rc]. destruct (rc =? 0); cbn [negb]; auto. }
    destruct (kq_del k f ev d ok) as [[[? ?] rc] ?]. destruct R as [-> | ->]; cbn [Z.eqb]; [now apply N|]. apply G, K.
  - unfold poll_wait. destruct events; cbn [negb bind].
    + assert (R : match wait_loop l with Ok (n, false) => 0 <= n | Ok (n, true) => n = -1 | UB => False | Fuel => True end).
      { cbn [counts] in Hc. induction l as [|[n|e] l IH]; cbn [wait_loop]; [exact I|apply Hc; now left|]. destruct (e =? EINTR); [|reflexivity].
        apply IH. intros n Hn. apply Hc. now right. }
      destruct (wait_loop l) as [[n [|]]| |]; cbn [bind negb]; [subst n| |destruct R|split; discriminate]; [|now apply N].
      apply G. cbn [why]. rewrite <- last_final. destruct bsd; [apply K|].
      change (bytes "epoll_wait : %s ") with (bytes "epoll_wait : " ++ [37; 115; 32])%list. destruct (S2 (bytes "epoll_wait : ") (last_error l)) as (b1 & -> & H); [absent|absent|]. exists b1. auto.
    + apply G. cbn [why]. destruct S3 as (b1 & -> & H). exists b1. auto.
Qed.

(** C134, poller: whatever calls threads make on pollers, nothing is undefined, and sc_sock_poll_err gives each thread the message of its
    own last call that failed, cut to 127 bytes; before that an empty one. *)
Theorem poll_err_partial strerror l : plain strerror -> Forall (fun x => counts (snd x)) l ->
  perrs strerror fresh l <> UB /\
  forall b rcs, perrs strerror fresh l = Ok (b, rcs) -> length rcs = length l /\ forall u, read_msg (b u) = Ok (heard strerror u [] l rcs).
Proof.
  intros Hp Hl.
  assert (A : forall b ms, (forall u, holds (b u) (ms u)) -> perrs strerror b l <> UB /\
    forall b' rcs, perrs strerror b l = Ok (b', rcs) -> length rcs = length l /\ forall u, read_msg (b' u) = Ok (heard strerror u (ms u) l rcs)).
  { induction l as [|[t c] l IH]; intros b ms Hb; cbn [perrs].
    - split; [discriminate|]. intros b' rcs H. injection H as <- <-. split; [reflexivity|]. intro u. cbn [heard]. apply Hb.
    - inversion Hl; subst. cbn [snd] in *. destruct (perr_ok strerror b t c Hp (fun u => proj1 (Hb u)) ltac:(assumption)) as [Hn Ho].
      destruct (perr strerror b t c) as [[b1 rc]| |]; cbn [bind]; [|now destruct Hn|split; discriminate].
      specialize (Ho b1 rc eq_refl). destruct Ho as [Hu Ht].
      specialize (IH ltac:(assumption) b1 (fun u => if (t =? u) && (rc <? 0) then firstn 127 (why strerror c) else ms u)).
      destruct IH as [I1 I2].
      { intro u. cbv beta. destruct (Z.eqb_spec t u) as [->|N]; cbn [andb]; [destruct (rc <? 0); [assumption|rewrite Ht; apply Hb]|rewrite Hu by congruence; apply Hb]. }
      destruct (perrs strerror b1 l) as [[b2 rcs]| |]; cbn [bind]; [|now destruct I1|split; discriminate].
      split; [discriminate|]. intros b' rcs' H. injection H as <- <-. destruct (I2 b2 rcs eq_refl) as [L M]. split; [cbn [length]; now rewrite L|].
      intro u. cbn [heard]. apply M. }
  apply (A fresh (fun _ => [])). intro u. unfold fresh, holds. repeat split.
Qed.
Print Assumptions poll_err_partial.
Example poll_err_ex : let se := fun e => if e =? 17 then bytes "File exists" else bytes "Bad" in
  plain se /\ exists b, perrs se fresh [(1, CWait false false []); (2, CAdd (fun _ => Some (1, 0)) (mk_fdt 3 0) 1 0 0 17); (1, CInit true (inl 5))] = Ok (b, [-1; -1; 0]) /\
    read_msg (b 2) = Ok (bytes "epoll_ctl : File exists ") /\ read_msg (b 1) = Ok (bytes "poll : sc_sock_poll is not initialized or already terminated").
Proof.
  split; [intro e; destruct (e =? 17); split; absent|]. eexists. split; [vm_compute; reflexivity|]. split; vm_compute; reflexivity.
Qed.
(** C134, refuted: the system's message is passed as a format (socket/sc_sock.c:1136, :1157, :1341, :1361): one with a conversion in it is undefined. *)
Theorem poll_err_format_refuted : perr (fun _ => bytes "100%s full") fresh 1 (CInit true (inr 28)) = UB.
Proof. reflexivity. Qed.
Print Assumptions poll_err_format_refuted.

(** C134, Windows: after an error of WSAPoll the thread reads the system's message, cut to 127 bytes; other threads' buffers stay. *)
Theorem poll_code_partial b t m : (forall u, length (b u) = 128%nat /\ zget (b u) 127 = Some 0) -> ~ In 0 m ->
  holds (poll_set_code b t (Some m) t) (firstn 127 m) /\ forall u, u <> t -> poll_set_code b t (Some m) u = b u.
Proof.
  intros Hb Hm. cbn [poll_set_code]. rewrite Z.eqb_refl. split; [|intros u Hu; destruct (Z.eqb_spec u t); [contradiction|reflexivity]].
  destruct (Hb t) as [L Z0]. set (x := b t) in *. clearbody x.
  assert (T : skipn 127 x = [0]).
  { unfold zget in Z0. change (127 <? 0) with false in Z0. cbv iota in Z0. change (Z.to_nat 127) with 127%nat in Z0.
    destruct (skipn 127 x) as [|y [|z r]] eqn:E.
    - apply (f_equal (@length Z)) in E. rewrite skipn_length, L in E. discriminate.
    - rewrite <- (firstn_skipn 127 x), E in Z0. rewrite nth_error_app2, firstn_length, L in Z0 by (rewrite firstn_length; lia). cbn in Z0. congruence.
    - apply (f_equal (@length Z)) in E. rewrite skipn_length, L in E. discriminate. }
  rewrite T. set (f := firstn 127 (m ++ repeat 0 127)).
  assert (Lf : length f = 127%nat) by (unfold f; rewrite firstn_length, app_length, repeat_length; lia).
  split; [rewrite app_length, Lf; reflexivity|]. split.
  - unfold zget. change (127 <? 0) with false. cbv iota. change (Z.to_nat 127) with 127%nat. rewrite nth_error_app2 by lia. rewrite Lf. reflexivity.
  - unfold f. rewrite firstn_app. destruct (le_lt_dec 127 (length m)).
    + replace (127 - length m)%nat with 0%nat by lia. rewrite firstn_O, app_nil_r. apply read_stop. intro; apply Hm; eapply in_firstn; eassumption.
    + rewrite (firstn_all2 m) by lia. destruct (127 - length m)%nat as [|k] eqn:E; [lia|]. cbn [repeat firstn]. rewrite <- app_assoc. cbn [app]. now apply read_stop.
Qed.
Print Assumptions poll_code_partial.
Example poll_code_ex : (forall u, length (fresh u) = 128%nat /\ zget (fresh u) 127 = Some 0) /\ read_msg (poll_set_code fresh 1 (Some (bytes "Not a socket")) 1) = Ok (bytes "Not a socket").
Proof. split; [intro u; split; reflexivity|reflexivity]. Qed.
(** C134, refuted: if FormatMessage fails, the message of an earlier error stays. *)
Theorem poll_code_refuted b t m : holds (b t) m -> read_msg (poll_set_code b t None t) = Ok m.
Proof. intros (_ & _ & H). exact H. Qed.
Print Assumptions poll_code_refuted.

(** C134, pipe: after init, term, read or write sc_sock_pipe_err gives: the reason if init failed, nothing if it did not; the reason of
    the last close that failed in term; and what it gave before if no init or close failed. *)
Definition pipe_says (strerror : Z -> list Z) (p : pipe) (old : list Z) (c : qcall) : list Z :=
  (match c with
  | QInit _ (inl _) => []
  | QInit _ (inr e) => firstn 127 (bytes "pipe() : " ++ strerror e ++ [32])
  | QTerm e1 e2 => if rend p =? -1 then old
                   else if negb (e2 =? 0) then firstn 127 (bytes "pipe close() : " ++ strerror e2 ++ [32])
                   else if negb (e1 =? 0) then firstn 127 (bytes "pipe close() : " ++ strerror e1 ++ [32]) else old
  | QIo _ => old
  end)%list.
Theorem pipe_err_partial strerror p m old c : (forall e, ~ In 0 (strerror e)) -> holds m old ->
  qerr strerror p m c <> UB /\
  forall p' m' rc, qerr strerror p m c = Ok (p', m', rc) -> holds m' (pipe_says strerror p old c).
Proof.
  intros Hs Hm.
  assert (S2 : forall pre b e, length b = 128%nat -> ~ In 37 pre -> ~ In 0 pre -> exists b1, set_msg b (pre ++ [37; 115; 32])%list [strerror e] = Ok b1 /\
    holds b1 (firstn 127 (pre ++ strerror e ++ [32]))).
  { intros. apply set_prefix; auto. }
  destruct c as [type a|e1 e2|l]; cbn [qerr pipe_says].
  - unfold pipe_init. destruct a as [[r w]|e].
    + split; [discriminate|]. intros p' m' rc H. injection H as <- <- <-. repeat split.
    + change (bytes "pipe() : %s ") with (bytes "pipe() : " ++ [37; 115; 32])%list.
      destruct (S2 (bytes "pipe() : ") (repeat 0 128) e) as (b1 & -> & H1); [reflexivity|absent|absent|]. cbn [bind]. split; [discriminate|].
      intros p' m' rc H. injection H as <- <- <-. assumption.
  - unfold pipe_term. change INVALID with (-1). destruct (rend p =? -1); [split; [discriminate|]; intros p' m' rc H; now injection H as <- <- <-|].
    change (bytes "pipe close() : %s ") with (bytes "pipe close() : " ++ [37; 115; 32])%list.
    assert (B : exists m1, (if e1 =? 0 then Ok m else set_msg m (bytes "pipe close() : " ++ [37; 115; 32])%list [strerror e1]) = Ok m1 /\
      holds m1 (if e1 =? 0 then old else firstn 127 (bytes "pipe close() : " ++ strerror e1 ++ [32])%list)).
    { destruct (e1 =? 0); [eauto|]. apply S2; [apply Hm|absent|absent]. }
    destruct B as (m1 & -> & H1). cbn [bind].
    destruct (e2 =? 0); cbn [bind negb].
    + split; [discriminate|]. intros p' m' rc H. injection H as <- <- <-. destruct (e1 =? 0); assumption.
    + destruct (S2 (bytes "pipe close() : ") m1 e2) as (b1 & -> & H2); [apply H1|absent|absent|]. cbn [bind]. split; [discriminate|].
      intros p' m' rc H. injection H as <- <- <-. assumption.
  - assert (R : pipe_io l <> UB) by (induction l as [|[n|e] l IH]; cbn [pipe_io]; try discriminate; destruct (e =? EINTR); [assumption|discriminate]).
    destruct (pipe_io l); cbn [bind]; [|now destruct R|split; discriminate]. split; [discriminate|]. intros p' m' rc H. injection H as <- <- <-. assumption.
Qed.
Print Assumptions pipe_err_partial.
Example pipe_err_ex : let se := fun _ => bytes "Too many open files" in
  (forall e, ~ In 0 (se e)) /\ holds (repeat 0 128) [] /\
  exists p m, qerr se (mk_pipe (-1) (-1) (mk_fdt 0 0) 0) (repeat 0 128) (QInit 0 (inr 24)) = Ok (p, m, -1) /\ read_msg m = Ok (bytes "pipe() : Too many open files ").
Proof.
  split; [intro e; absent|]. split; [repeat split|]. eexists _, _. split; [vm_compute; reflexivity|vm_compute; reflexivity].
Qed.
(** C134, refuted: a failing write or read (here EBADF) on POSIX gives no message. *)
Theorem pipe_err_refuted : exists p m, qerr (fun _ => bytes "Bad file descriptor") (mk_pipe 3 4 (mk_fdt 3 0) 0) (repeat 0 128) (QIo [inr 9]) = Ok (p, m, -1) /\ read_msg m = Ok [].
Proof. eexists _, _. split; [reflexivity|]. vm_compute. reflexivity. Qed.
Print Assumptions pipe_err_refuted.
