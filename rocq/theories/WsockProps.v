(** C125, C126, C127: socket/sc_sock.c on Windows. *)
From Verif Require Import Base WsockModel.

(** ** Specification *)
Definition version_22 (c : wuse) : Prop := match c with Startup rc low high => rc = 0 -> low = 2 /\ high = 2 | Cleanup _ => True end.
(** Successful calls (by their results). *)
Definition started (c : wuse) (rc : Z) : Z := match c with Startup _ _ _ => if rc =? 0 then 1 else 0 | Cleanup _ => 0 end.
Definition stopped (c : wuse) (rc : Z) : Z := match c with Cleanup _ => if rc =? 0 then 1 else 0 | Startup _ _ _ => 0 end.
Fixpoint count (f : wuse -> Z -> Z) (l : list wuse) (rcs : list Z) : Z :=
  match l, rcs with c :: l, rc :: rcs => f c rc + count f l rcs | _, _ => 0 end.

(** C125: in every history each call returns 0 or -1, and the uses registered are the successful startups less the successful
    cleanups; the blocking mode asked for is set.  Missing: another version of Winsock, see
    wsock_startup_refuted. *)
Theorem wsock_uses_partial l : forall uses, Forall version_22 l -> let '(uses', rcs) := wsock_uses uses l in
  length rcs = length l /\ Forall (fun rc => rc = 0 \/ rc = -1) rcs /\ uses' = uses + count started l rcs - count stopped l rcs.
Proof.
  induction l as [|c l IH]; intros uses H; cbn [wsock_uses].
  - cbn. repeat split; [constructor|lia].
  - inversion H as [|c' l' Hc Hl]; subst c' l'.
    destruct (match c with Startup rc low high => wsock_startup uses rc low high | Cleanup rc => wsock_cleanup uses rc end) as [u1 rc1] eqn:E1.
    specialize (IH u1 Hl). destruct (wsock_uses u1 l) as [u2 rcs]. destruct IH as (I1 & I2 & I3). cbn [length count].
    assert (Hs : (rc1 = 0 \/ rc1 = -1) /\ u1 = uses + started c rc1 - stopped c rc1).
    { destruct c as [rc low high|rc]; cbn [version_22] in Hc; [unfold wsock_startup in E1|unfold wsock_cleanup in E1]; cbn [started stopped].
      - destruct (Z.eqb_spec rc 0) as [->|]; cbn [negb orb] in E1.
        + destruct (Hc eq_refl) as [-> ->]. cbn in E1. injection E1 as <- <-. cbn. lia.
        + injection E1 as <- <-. cbn. lia.
      - destruct (Z.eqb_spec rc 0) as [->|]; cbn [negb] in E1; injection E1 as <- <-; cbn; lia. }
    destruct Hs as [Hs1 Hs2]. split; [lia|]. split; [now constructor|lia].
Qed.
Print Assumptions wsock_uses_partial.
Example wsock_uses_ex : let l := [Startup 0 2 2; Startup 10091 0 0; Startup 0 2 2; Cleanup 10050; Cleanup 0] in
  Forall version_22 l /\ wsock_uses 0 l = (1, [0; -1; 0; -1; 0]).
Proof. split; [repeat constructor; discriminate|reflexivity]. Qed.
(** C125: a startup returns 0 exactly if version 2.2 is granted, otherwise -1; a cleanup exactly if Windows says so. *)
Theorem wsock_startup_exact uses rc low high :
  (snd (wsock_startup uses rc low high) = 0 <-> rc = 0 /\ low = 2 /\ high = 2) /\
  (snd (wsock_startup uses rc low high) <> 0 -> snd (wsock_startup uses rc low high) = -1) /\
  (snd (wsock_cleanup uses rc) = 0 <-> rc = 0) /\ (rc <> 0 -> wsock_cleanup uses rc = (uses, -1)).
Proof.
  unfold wsock_startup, wsock_cleanup. destruct (Z.eqb_spec rc 0), (Z.eqb_spec low 2), (Z.eqb_spec high 2); cbn [negb orb snd];
    (split; [|split; [|split]]); try (split; intros); try lia; intros; try lia; reflexivity.
Qed.
Print Assumptions wsock_startup_exact.
Example wsock_startup_exact_ex : wsock_startup 3 0 2 2 = (4, 0) /\ wsock_startup 3 10092 0 0 = (3, -1) /\ wsock_cleanup 3 0 = (2, 0).
Proof. split; [|split]; reflexivity. Qed.
(** C125, refuted: a startup that gets another version fails but the use stays registered. *)
Theorem wsock_startup_refuted uses : wsock_uses uses [Startup 0 2 1] = (uses + 1, [-1]).
Proof. reflexivity. Qed.
Print Assumptions wsock_startup_refuted.
(** C125: the blocking mode. *)
Theorem wsock_blocking b rc : let '(mode, r) := wsock_set_blocking b rc in (mode = 0 <-> b = true) /\ (r = 0 <-> rc = 0) /\ (r = 0 \/ r = -1).
Proof. unfold wsock_set_blocking. destruct b, (Z.eqb_spec rc 0); repeat split; intros; try lia; congruence. Qed.
Print Assumptions wsock_blocking.
Example wsock_blocking_ex : wsock_set_blocking false 0 = (1, 0) /\ wsock_set_blocking true 10038 = (0, -1).
Proof. split; reflexivity. Qed.

(** C126, refuted for every limit: Windows takes the seconds for milliseconds, so that a limit of ms is one of ms / 1000, and
    there is none at all below a second. *)
Theorem wsock_timeo_refuted ms : 0 <= ms < 2 ^ 31 ->
  win_timeout (wsock_timeo ms) = if ms <? 1000 then None else Some (ms / 1000).
Proof.
  intro H. unfold wsock_timeo, win_timeout, long_bytes, u32. cbv zeta. cbn [app].
  rewrite Z.quot_div_nonneg by lia.
  assert (Hq : 0 <= ms / 1000 <= ms) by (split; [apply Z.div_pos; lia|apply Z.div_le_upper_bound; lia]).
  rewrite (Z.mod_small (ms / 1000) (2 ^ 32)) by lia. set (q := ms / 1000) in *.
  assert (E : q mod 256 + 256 * (q / 256 mod 256) + 65536 * (q / 65536 mod 256) + 16777216 * (q / 16777216 mod 256) = q).
  { Z.div_mod_to_equations. lia. }
  rewrite E. destruct (Z.ltb_spec ms 1000) as [Hm|Hm].
  - replace q with 0; [reflexivity|]. symmetry. apply Z.div_small. lia.
  - destruct (Z.eqb_spec q 0) as [E0|]; [|reflexivity]. assert (1 <= q) by (apply Z.div_le_lower_bound; lia). lia.
Qed.
Print Assumptions wsock_timeo_refuted.
Example wsock_timeo_ex : win_timeout (wsock_timeo 5000) = Some 5 /\ win_timeout (wsock_timeo 500) = None.
Proof. split; reflexivity. Qed.
(** C126: only a limit of 0 (none) is passed as meant. *)
Theorem wsock_timeo_partial ms : 0 <= ms < 2 ^ 31 -> (win_timeout (wsock_timeo ms) = (if ms =? 0 then None else Some ms) <-> ms = 0).
Proof.
  intro H. rewrite wsock_timeo_refuted by exact H. split; [|now intros ->]. destruct (Z.eqb_spec ms 0); [trivial|].
  destruct (Z.ltb_spec ms 1000); [discriminate|]. intro E. injection E as E. pose proof (Z.div_lt ms 1000). lia.
Qed.
Print Assumptions wsock_timeo_partial.
Example wsock_timeo_zero : 0 <= 0 < 2 ^ 31 /\ win_timeout (wsock_timeo 0) = None.
Proof. split; [lia|reflexivity]. Qed.

(** C127: sc_sock_finish_connect returns 0 exactly if the connection is made, otherwise -1 with the message of the failed
    getsockopt.  Missing: the message of the connection's error, see wsock_finish_refuted. *)
Theorem wsock_finish_partial fm e rc ret : let '(e', r) := wsock_finish_connect fm e rc ret in
  (r = 0 \/ r = -1) /\ (r = 0 <-> rc = 0 /\ ret = 0) /\ (r = 0 -> e' = e) /\
  (rc <> 0 -> fm = true -> text e' = Some rc) /\ (rc = 0 -> ret <> 0 -> werrno e' = ret).
Proof.
  unfold wsock_finish_connect, wsock_errstr. destruct (Z.eqb_spec rc 0) as [->|Hr]; cbn [andb].
  - destruct (Z.eqb_spec ret 0) as [->|Ht]; cbn [negb Z.eqb].
    + repeat split; try tauto; intros; congruence.
    + destruct fm; cbn [last werrno text]; repeat split; try tauto; try lia; intros; try congruence; lia.
  - destruct (Z.eqb_spec rc 0); [contradiction|]. cbn [negb]. destruct fm; cbn [last werrno text]; repeat split; try tauto; try lia; intros; try congruence; lia.
Qed.
Print Assumptions wsock_finish_partial.
Example wsock_finish_ex : wsock_finish_connect true (mk_wlast 0 0 None) 10038 0 = (mk_wlast 10038 0 (Some 10038), -1).
Proof. reflexivity. Qed.
(** C127, refuted: for every error of the connection the message is that of whatever failed before. *)
Theorem wsock_finish_refuted e ret : ret <> 0 -> text (fst (wsock_finish_connect true e 0 ret)) = Some (last e).
Proof. intro H. unfold wsock_finish_connect. cbn [Z.eqb andb]. now rewrite (proj2 (Z.eqb_neq _ _) H). Qed.
Print Assumptions wsock_finish_refuted.

(** C127: connecting a Unix socket: 0 with the connected socket, or -1 with nothing left open; paths of 108 bytes and more are
    refused; the message is that of the failed call.  Missing: the message for long paths, see wsock_unix_refuted. *)
Theorem wsock_unix_partial fm e len sk ec cl : let '(a, e', r, fd) := wsock_connect_unix fm e len sk ec cl in
  (r = 0 /\ a = [Opened fd; Connected fd len] /\ sk = inr fd /\ len < 108 /\ ec = 0 \/
   r = -1 /\ fd = -1 /\ (a = [] \/ exists f, a = [Opened f; Closed f]) /\ (108 <= len \/ ec <> 0 \/ exists x, sk = inl x)) /\
  (fm = true -> forall x, (sk = inl x \/ (exists f, sk = inr f /\ len < 108 /\ ec <> 0 /\ x = ec)) -> text e' = Some x).
Proof.
  unfold wsock_connect_unix, wsock_errstr. destruct sk as [x|f].
  - split; [right; repeat split; [now left|right; right; now exists x]|]. intros ->. intros y [E|(g & E & _)]; [injection E as <-; reflexivity|discriminate].
  - destruct (Z.leb_spec 108 len) as [Hl|Hl].
    + split; [right; repeat split; [right; now exists f|now left]|]. intros -> y [E|(g & _ & F & _)]; [discriminate|lia].
    + destruct (Z.eqb_spec ec 0) as [->|Hc]; cbn [negb].
      * split; [left; now repeat split|]. intros _ y [E|(g & _ & _ & F & _)]; [discriminate|contradiction].
      * split; [right; repeat split; [right; now exists f|right; now left]|]. intros -> y [E|(g & _ & _ & _ & ->)]; [discriminate|].
        destruct cl; reflexivity.
Qed.
Print Assumptions wsock_unix_partial.
Example wsock_unix_ex : wsock_connect_unix true (mk_wlast 0 0 None) 20 (inr 5) 10061 None = ([Opened 5; Closed 5], mk_wlast 10061 0 (Some 10061), -1, -1).
Proof. reflexivity. Qed.
(** C127, refuted: a path that is too long is refused with the message of an earlier error. *)
Theorem wsock_unix_refuted e fd ec len cl : 108 <= len ->
  let '(_, e', r, _) := wsock_connect_unix true e len (inr fd) ec cl in r = -1 /\ text e' = Some (last e).
Proof. intro H. unfold wsock_connect_unix. rewrite (proj2 (Z.leb_le _ _) H). split; [reflexivity|]. now destruct cl. Qed.
Print Assumptions wsock_unix_refuted.
Example wsock_unix_long : wsock_connect_unix true (mk_wlast 10035 0 None) 200 (inr 5) 0 None = ([Opened 5; Closed 5], mk_wlast 10035 22 (Some 10035), -1, -1).
Proof. reflexivity. Qed.
