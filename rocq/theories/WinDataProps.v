(** Properties of the user data of the poller of socket/sc_sock.c on Windows, when every call brings its own. *)
From Coq Require Import Permutation.
From Verif Require Import Base SockModel PollModel WinModel WinSpec WinProofs WinRun WinProps WinDataSpec WinDataProofs.
From Coq Require Import ZifyBool.

(** ** C156: the user data *)

(** As [win_registration_partial], for calls with any user data: whenever no thread is inside WSAPoll, the table has one slot for every
    structure with a non-empty mask, and its data is what [dastep] says: the data of the last call that changed the mask, where the
    calls put off during one poll count as one call with the data of the last of them. *)
Theorem win_data : forall ids f o s0 l,
  fresh ids f -> i_pipe o <> Some INVALID -> win_init f o = Ok (s0, 0) -> dlegal ids abs0 s0 l ->
  exists s r, drun s0 l = Ok (s, r) /\ let B := daruns dabs0 l r in a_poll (d_abs B) = w_polling (wp s) /\
    (a_poll (d_abs B) = false -> let m := a_mask (d_abs B) in
      Permutation (table s) (map (want_row f (d_data B) m) (filter (fun a => negb (m a =? 0)) ids))).
Proof.
  intros ids f o s0 l Fr Hp Hi Lg. destruct (init_state _ _ _ Hi) as (fd & _ & _ & _ & E & ->). assert (Hfd : fd <> INVALID) by congruence. pose proof (init_dokay ids f fd (i_junk o) Fr Hfd) as K.
  destruct (d_run_ok _ _ _ _ _ K Lg) as (s & r & R & ((V & Pol & Em & _) & _)). exists s, r. split; [exact R|]. split; [exact Pol|]. intros Ap m. rewrite (Em Ap) in V.
  apply (table_ok _ _ _ _ _ _ (dinv_inv _ _ _ _ _ _ V)). intros a Ha. destruct (a =? WAKE) eqn:Ew; [|reflexivity]. destruct Fr as (_ & Nw & _). apply Z.eqb_eq in Ew. subst. contradiction.
Qed.
Print Assumptions win_data.
(** And it is the data reported: as [win_results], for calls with any user data. *)
Theorem win_data_results : forall ids f o s0 l,
  fresh ids f -> i_pipe o <> Some INVALID -> win_init f o = Ok (s0, 0) -> dlegal ids abs0 s0 l ->
  exists s r, drun s0 l = Ok (s, r) /\ let B := daruns dabs0 l r in let A := d_abs B in
    (a_poll A = true -> a_subs A = 0 -> forall rev rv ops, answers_with s rev rv ->
      exists s1 due, dstep s (DAnswer (Events (answers s rev) rv) ops) = Ok (s1, Ret (zlen (w_res (wp s1)))) /\
        w_res (wp s1) = firstn 1024 due /\ (forall k, delivers k s1 (skipn 1024 due)) /\
        Permutation due (flat_map (fun a => report (rev (f_fd (f a))) (edge_of s a) (d_data B a)) (filter (fun a => negb (a_mask A a =? 0)) ids))).
Proof.
  intros ids f o s0 l Fr Hp Hi Lg. destruct (init_state _ _ _ Hi) as (fd & _ & _ & _ & E & ->). assert (Hfd : fd <> INVALID) by congruence. pose proof (init_dokay ids f fd (i_junk o) Fr Hfd) as K.
  destruct (d_run_ok _ _ _ _ _ K Lg) as (s & r & R & (G & _ & Ho)). exists s, r. split; [exact R|]. intros B A Ap As rev rv ops Hr. fold B in G. fold A in G.
  assert (Em : w_ops (wp s) = []). { destruct G as (_ & _ & _ & _ & _ & (Q & _)). rewrite As in Q. destruct (w_ops (wp s)); [reflexivity|]. rewrite zlen_cons in Q. pose proof (zlen_nonneg l0). lia. }
  assert (K' : okay ids (d_data B) (fun a => if a =? WAKE then fd else f_fd (f a)) A s).
  { split; [|exact Ho]. destruct G as (V & Pol & Eo & Ms & Num & Q). split; [|split; [exact Pol|split; [exact Eo|split; [exact Ms|split; [exact Num|exact Q]]]]]. rewrite Em in *. apply (dinv_inv _ _ (d_last B)). exact V. }
  destruct (end_due _ _ _ _ _ rev rv ops K' Em Hr) as (s1 & due & W & D1 & D2 & D3). exists s1, due. cbn [dstep]. rewrite W. cbn [bind fst snd]. split; [reflexivity|]. split; [exact D1|]. split; [exact D2|].
  eapply Permutation_trans; [exact D3|]. erewrite flat_ext_in; [apply Permutation_refl|]. intros a Ha. apply filter_In in Ha. destruct Ha as [Ha _]. cbn beta. destruct (a =? WAKE) eqn:Ew; [|reflexivity]. destruct Fr as (_ & Nw & _). apply Z.eqb_eq in Ew. subst. contradiction.
Qed.
Print Assumptions win_data_results.
(** Structure 1: registered with 11, a call that changes nothing with 12, one that does with 13.  While a thread polls, structure 2 is
    added with 21 and changed with 22; structure 3, registered with 31, is taken out and added again with 33. *)
Definition exd_l : list dact := [DAdd 1 1 11 ex_o; DAdd 1 1 12 ex_o; DAdd 1 2 13 ex_o; DAdd 3 1 31 ex_o; DWait 5; DAdd 2 1 21 ex_o; DAdd 2 4 22 ex_o; DDel 3 1 32 ex_o; DAdd 3 2 33 ex_o; DAnswer (Events 0 []) (fun _ => ex_o)].
Ltac dstep_legal := split; [cbn; intuition (try discriminate; try lia)|]; intros ? ? H; vm_compute in H; injection H as <- <-.
Example win_data_ex : fresh [1; 2; 3] ex_f /\ win_init ex_f ex_io = Ok (ex_s0, 0) /\ dlegal [1; 2; 3] abs0 ex_s0 (exd_l ++ [DWait 5]) /\
  exists s s2 s3, drun ex_s0 exd_l = Ok (s, [Ret 0; Ret 0; Ret 0; Ret 0; Began; Ret 0; Ret 0; Ret 0; Ret 0; Ret 0]) /\
    table s = [(101, WPOLLIN + WPOLLOUT, 13, false); (103, WPOLLOUT, 33, false); (102, WPOLLIN, 22, true)] /\
    dstep s (DWait 5) = Ok (s2, Began) /\ dstep s2 (DAnswer (Events 2 ([0; WPOLLIN; 0; WPOLLIN] ++ repeat 0 12)) (fun _ => ex_o)) = Ok (s3, Ret 2) /\ w_res (wp s3) = [(SREAD, 13); (SREAD, 22)].
Proof.
  split; [exact ex_fresh|]. split; [reflexivity|]. split; [unfold exd_l; cbn [app]; repeat dstep_legal; exact I|].
  eexists _, _, _. split; [vm_compute; reflexivity|]. split; [vm_compute; reflexivity|]. split; [vm_compute; reflexivity|]. split; vm_compute; reflexivity.
Qed.
(** So the data of the last call that returned 0 is not always the one reported: not if the call asks for events already registered
    (socket/sc_sock.c:1815), and not if the calls put off cancel out, though each changed the mask (:1716-1718; made one after the other while
    no thread polls, the same calls leave 13). *)
Theorem win_data_refuted :
  (exists s, drun ex_s0 [DAdd 1 1 11 ex_o; DAdd 1 1 12 ex_o] = Ok (s, [Ret 0; Ret 0]) /\ table s = [(101, WPOLLIN, 11, false)]) /\
  (exists s, drun ex_s0 [DAdd 1 1 11 ex_o; DWait 5; DAdd 1 2 12 ex_o; DDel 1 2 13 ex_o; DAnswer (Events 0 []) (fun _ => ex_o)] = Ok (s, [Ret 0; Began; Ret 0; Ret 0; Ret 0]) /\ table s = [(101, WPOLLIN, 11, false)]) /\
  (exists s, drun ex_s0 [DAdd 1 1 11 ex_o; DAdd 1 2 12 ex_o; DDel 1 2 13 ex_o] = Ok (s, [Ret 0; Ret 0; Ret 0]) /\ table s = [(101, WPOLLIN, 13, false)]).
Proof. split; [|split]; (eexists; split; [vm_compute; reflexivity|vm_compute; reflexivity]). Qed.
Print Assumptions win_data_refuted.
