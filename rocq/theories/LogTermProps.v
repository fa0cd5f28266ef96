(** C170: terminating the logger. *)
From Verif Require Import Base LogModel LogSpec LogProofs.

(** Whether sc_log_init was called after the last sc_log_term. *)
Fixpoint initialised (h : list op) (now : bool) : bool :=
  match h with [] => now | Init _ :: r => initialised r true | Term _ :: r => initialised r false | _ :: r => initialised r now end.
(** The call does not set up anything. *)
Definition only_logs (o : op) : Prop := match o with Log _ _ _ _ _ _ _ _ => True | _ => False end.

Lemma initialised_config h : forall c, c_init (fold_left configure h c) = initialised h (c_init c).
Proof.
  induction h as [|o h IH]; intro c; [reflexivity|]. cbn [fold_left initialised]. rewrite IH.
  destruct o; cbn [configure]; try reflexivity; [destruct (c_init c) eqn:E; cbn [c_init]; congruence|].
  destruct level_of; reflexivity.
Qed.

(** After any history of calls: sc_log_term fails and does nothing if the logger is not initialised.  Otherwise it returns 0 unless a file is
    open that cannot be closed, and -1 then; files, console and threads' names stay as they are, and messages logged afterwards go nowhere. *)
Theorem log_term_result f h w rcs ok : Forall op_ok h -> run (start f) h = Ok (w, rcs) ->
  exists w' rc, step w (Term ok) = Ok (w', rc) /\
    (initialised h false = false -> w' = w /\ rc = -1) /\
    (initialised h false = true ->
      (fp (lg w) = None \/ ok = true -> rc = 0) /\ (fp (lg w) <> None -> ok = false -> rc = -1) /\
      fs w' = fs w /\ out w' = out w /\ err w' = err w /\ calls w' = calls w /\ names w' = names w /\
      forall ls, Forall op_ok ls -> Forall only_logs ls -> exists rcs', run w' ls = Ok (w', rcs') /\ Forall (eq 0) rcs').
Proof.
  intros Ho E. destruct (run_ok h _ _ (start_agrees f) Ho) as (w0 & rcs0 & E0 & _ & _ & _ & A). rewrite E in E0. injection E0 as <- _.
  destruct A as (_ & Ai & _). rewrite initialised_config in Ai. cbn [start_config c_init] in Ai.
  cbn [step]. unfold term. rewrite Ai. destruct (initialised h false) eqn:I; cbn [negb].
  - do 2 eexists. split; [reflexivity|]. split; [discriminate|]. intros _. split; [|split; [|repeat (split; [reflexivity|])]].
    + intros [-> | ->]; [reflexivity|]. now destruct (fp (lg w)).
    + intros Hf ->. now destruct (fp (lg w)).
    + intros ls Hl Hs. induction ls as [|o ls IH]; [exists []; split; [reflexivity|constructor]|].
      inversion Hl as [|? ? Ho1 Hl']; inversion Hs as [|? ? Hs1 Hs']; subst. destruct (IH Hl' Hs') as (rs & Er & Fr).
      destruct o; try contradiction. exists (0 :: rs). split; [|now constructor]. cbn [run step].
      unfold log. cbn [with_lg lg zero_logger level to_stdout fp cb]. destruct (_ <? _); cbn [bind]; [now rewrite Er|]. cbn [Z.lor]. now rewrite Er.
  - exists w, (-1). split; [destruct w; reflexivity|]. split; [auto|discriminate].
Qed.
Print Assumptions log_term_result.
Example log_term_result_ex : exists w rcs, let h := [Init 0; SetFile (Some [97; 0]) (Some [98; 0]) true Good true 5] in
  Forall op_ok h /\ run (start (fun _ => None)) h = Ok (w, rcs) /\ initialised h false = true /\ fp (lg w) <> None /\
  (exists w1, step w (Term true) = Ok (w1, 0) /\ exists w2, step w1 (Term true) = Ok (w2, -1)) /\ (exists w1, step w (Term false) = Ok (w1, -1)).
Proof.
  do 2 eexists. cbv zeta. split.
  - repeat constructor; intros m Hm; injection Hm as <-; [exists [97]|exists [98]]; (split; [vm_compute; intuition discriminate|exists []; reflexivity]).
  - split; [vm_compute; reflexivity|]. split; [reflexivity|]. split; [discriminate|]. split; [|eexists; vm_compute; reflexivity].
    eexists. split; [vm_compute; reflexivity|]. eexists. vm_compute. reflexivity.
Qed.
