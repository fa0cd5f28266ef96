(** Proofs about the Windows poller: what is allocated and freed. *)
From Verif Require Import Base SockModel PollModel WinModel WinSpec WinProofs WinRun.
From Coq Require Import ZifyBool.

Definition heldb (p : wpoll) (b : block) : Z :=
  match b with
  | BResults => 1
  | BEvents => match w_events p with Live _ => 1 | _ => 0 end
  | BChunk i => if (0 <=? i) && (i <? zlen (w_data p)) then 1 else 0
  | BOps => if w_opnull p then 0 else 1
  end.
Definition tidy (l : list mact) (h : block -> Z) : Prop := forall b, net b l = h b /\ forall pre suf, l = pre ++ suf -> 0 <= net b pre <= 1.
Definition acct (p : wpoll) : Prop := tidy (w_log p) (heldb p) /\ w_events p <> Null.

Lemma net_app b l k : net b (l ++ k) = net b l + net b k.
Proof. induction l; cbn; lia. Qed.
Lemma split_snoc {A} (l : list A) x pre suf : l ++ [x] = pre ++ suf -> pre = l ++ [x] \/ exists s, l = pre ++ s.
Proof.
  destruct suf as [|y suf] using rev_ind; intros E; [left; rewrite app_nil_r in E; congruence|]. rewrite app_assoc in E. apply app_inj_tail in E. destruct E as [-> _]. right. eauto.
Qed.
Lemma tidy_snoc l h m h' : tidy l h -> (forall b, h' b = h b + net1 b m /\ 0 <= h' b <= 1) -> tidy (l ++ [m]) h'.
Proof.
  intros T H b. destruct (T b) as [T1 T2]. destruct (H b) as [H1 H2]. assert (N : net b (l ++ [m]) = h' b) by (rewrite net_app; cbn; lia). split; [exact N|].
  intros pre suf E. destruct (split_snoc _ _ _ _ E) as [->|[s ->]]; [lia|]. apply (T2 pre s). reflexivity.
Qed.
Lemma tidy_ext l h h' : tidy l h -> (forall b, h' b = h b) -> tidy l h'.
Proof. intros T H b. rewrite H. apply T. Qed.
Lemma block_eqb_eq b c : block_eqb b c = true <-> b = c.
Proof. destruct b, c; cbn; split; intros H; try congruence; try discriminate; [f_equal; lia|injection H; lia]. Qed.

(** What does not concern memory. *)
Definition kept (p p' : wpoll) : Prop := w_log p' = w_log p /\ zlen (w_data p') = zlen (w_data p) /\ w_opnull p' = w_opnull p /\
  match w_events p, w_events p' with Live _, Live _ | Null, Null | Freed, Freed => True | _, _ => False end.
Lemma kept_refl p : kept p p.
Proof. repeat split. destruct (w_events p); exact I. Qed.
Lemma kept_trans p q r : kept p q -> kept q r -> kept p r.
Proof. intros (A1 & A2 & A3 & A4) (B1 & B2 & B3 & B4). split; [congruence|]. split; [congruence|]. split; [congruence|]. destruct (w_events p), (w_events q), (w_events r); auto; contradiction. Qed.
Lemma kept_acct p p' : kept p p' -> acct p -> acct p'.
Proof.
  intros (A1 & A2 & A3 & A4) [T N]. split; [|destruct (w_events p), (w_events p'); try discriminate; contradiction]. rewrite A1. apply (tidy_ext _ _ _ T). intros b. unfold heldb. rewrite A2, A3. destruct b; auto. destruct (w_events p), (w_events p'); auto; contradiction.
Qed.
Ltac binv H := match type of H with bind ?m _ = Ok _ => let E := fresh "E" in destruct m eqn:E; cbn [bind] in H; [|discriminate H|discriminate H] end.
Lemma zput_zlen {A} (l : list A) i x l' : zput l i x = Ok l' -> zlen l' = zlen l.
Proof. intros H. apply zput_inv in H. destruct H as [_ ->]. apply zlen_zset. Qed.
Lemma cell_put_kept p q c p' : cell_put p q c = Ok p' -> kept p p'.
Proof.
  unfold cell_put. intros H. binv H. binv H. binv H. injection H as <-. split; [reflexivity|]. split; [cbn; eapply zput_zlen; eauto|]. split; [reflexivity|]. cbn. destruct (w_events p); exact I.
Qed.
Lemma set_live_kept p ev ev' : ev_block p = Ok ev -> kept p (set_events p (Live ev')).
Proof. unfold ev_block. intros H. repeat split. cbn. destruct (w_events p); try discriminate. exact I. Qed.
Lemma expand_acct p o p' rc : expand p o = Ok (p', rc) -> acct p -> acct p'.
Proof.
  unfold expand. destruct (w_count p =? w_cap p); [|intros H; injection H as <- _; auto]. destruct (w_cap p >=? SIZE_MAX / 2); [intros H; injection H as <- _; auto|]. intros H T. cbv zeta in H. binv H.
  unfold ev_block in E. destruct (w_events p) eqn:Ev; try discriminate. destruct (negb (m_events o)); [injection H as <- _; exact T|].
  assert (H0 : forall b, heldb p b = heldb p b) by reflexivity. clear H0.
  assert (T1 : tidy (w_log p ++ [Gave BEvents]) (fun b => match b with BEvents => 0 | _ => heldb p b end)).
  { apply (tidy_snoc _ _ _ _ (proj1 T)). intros b. unfold heldb. rewrite Ev. destruct b; cbn; try destruct (w_opnull p); try destruct ((0 <=? i) && (i <? zlen (w_data p))); lia. }
  assert (T2 : tidy ((w_log p ++ [Gave BEvents]) ++ [Got BEvents]) (heldb p)).
  { apply (tidy_snoc _ _ _ _ T1). intros b. unfold heldb. rewrite Ev. destruct b; cbn; try destruct (w_opnull p); try destruct ((0 <=? i) && (i <? zlen (w_data p))); lia. }
  destruct ((zlen (w_data p) <? 16) && m_chunk o); injection H as <- _.
  - split; [|solve [discriminate|exact (proj2 T)]]. cbn [w_log]. replace (w_log p ++ [Gave BEvents; Got BEvents; Got (BChunk (zlen (w_data p)))]) with (((w_log p ++ [Gave BEvents]) ++ [Got BEvents]) ++ [Got (BChunk (zlen (w_data p)))]) by (rewrite <- !app_assoc; reflexivity).
    apply (tidy_snoc _ _ _ _ T2). intros b. unfold heldb. rewrite Ev. cbn [w_events w_data w_opnull]. pose proof (zlen_nonneg (w_data p)). destruct b; cbn [net1 block_eqb]; [lia|lia| |destruct (w_opnull p); lia].
    rewrite zlen_app, zlen_cons, zlen_nil. destruct (0 <=? i) eqn:A1; cbn [andb]; [|destruct (i =? zlen (w_data p)) eqn:A2; lia].
    destruct (i <? zlen (w_data p) + (0 + 1)) eqn:A2, (i <? zlen (w_data p)) eqn:A3, (i =? zlen (w_data p)) eqn:A4; lia.
  - split; [|solve [discriminate|exact (proj2 T)]]. cbn [w_log]. replace (w_log p ++ [Gave BEvents; Got BEvents; Gave BEvents]) with (((w_log p ++ [Gave BEvents]) ++ [Got BEvents]) ++ [Gave BEvents]) by (rewrite <- !app_assoc; reflexivity).
    apply (tidy_snoc _ _ _ _ T2). intros b. unfold heldb. rewrite Ev. cbn [w_events w_data w_opnull]. destruct b; cbn; try destruct (w_opnull p); try destruct ((0 <=? i) && (i <? zlen (w_data p))); lia.
Qed.
Lemma room_acct p o q : room p o = Ok (Some q) -> acct p -> acct q.
Proof.
  unfold room. intros H T. destruct (zlen (w_ops p) =? w_opcap p); [|injection H as <-; exact T]. destruct (w_opcap p >=? SIZE_MAX); [discriminate|]. destruct (w_opnull p) eqn:En.
  - destruct (m_ops o); [|discriminate]. injection H as <-. split; [|solve [discriminate|exact (proj2 T)]]. cbn [w_log]. apply (tidy_snoc _ _ _ _ (proj1 T)). intros b. unfold heldb. cbn [w_events w_data w_opnull]. rewrite En.
    destruct b; cbn; try destruct (w_events p); try destruct ((0 <=? i) && (i <? zlen (w_data p))); lia.
  - destruct (SIZE_MAX <? w_opcap p * 3); [discriminate|]. destruct (m_ops o); [|discriminate]. injection H as <-. split; [|solve [discriminate|exact (proj2 T)]]. cbn [w_log].
    replace (w_log p ++ [Gave BOps; Got BOps]) with ((w_log p ++ [Gave BOps]) ++ [Got BOps]) by (rewrite <- !app_assoc; reflexivity).
    assert (T1 : tidy (w_log p ++ [Gave BOps]) (fun b => match b with BOps => 0 | _ => heldb p b end)).
    { apply (tidy_snoc _ _ _ _ (proj1 T)). intros b. unfold heldb. rewrite En. destruct b; cbn; try destruct (w_events p); try destruct ((0 <=? i) && (i <? zlen (w_data p))); lia. }
    apply (tidy_snoc _ _ _ _ T1). intros b. unfold heldb. cbn [w_events w_data w_opnull]. destruct b; cbn; try destruct (w_events p); try destruct ((0 <=? i) && (i <? zlen (w_data p))); lia.
Qed.
Lemma submit_acct s a ev d add o s' rc : submit s a ev d add o = Ok (s', rc) -> acct (wp s) -> acct (wp s').
Proof.
  unfold submit. cbv zeta. intros H T.
  assert (R : exists r, (if f_opi (wf s a) =? -1 then let* q := room (wp s) o in match q with None => Ok None | Some p => Ok (Some (set_ops p (w_ops p ++ [mk_wop false 0 0 None None 0]), zlen (w_ops (wp s)), zlen (w_ops (wp s)) =? 0)) end else Ok (Some (wp s, f_opi (wf s a), false))) = Ok r /\
    match r with None => True | Some (p, _, _) => acct p end).
  { destruct (f_opi (wf s a) =? -1); [|exists (Some (wp s, f_opi (wf s a), false)); split; [reflexivity|exact T]]. destruct (room (wp s) o) as [[q|]| |] eqn:E; cbn [bind] in *; try discriminate.
    - eexists. split; [reflexivity|]. apply (kept_acct q); [|exact (room_acct _ _ _ E T)]. repeat split. cbn. destruct (w_events q); exact I.
    - eexists. split; [reflexivity|exact I]. }
  destruct R as (r & R1 & R2). rewrite R1 in H. cbn [bind] in H. destruct r as [[[p j] wk]|]; [|injection H as <- _; exact T]. binv H. binv H. injection H as <- _. cbn [wp]. apply (kept_acct p); [|exact R2]. repeat split. cbn. destruct (w_events p); exact I.
Qed.
Lemma slot_for_acct p t o p' r : slot_for p t o = Ok (p', r) -> acct p -> acct p'.
Proof.
  unfold slot_for. intros H T. destruct (f_op t =? 0).
  - binv H. destruct a as [p1 rc]. pose proof (expand_acct _ _ _ _ E T) as T1. destruct (negb (rc =? 0)); [injection H as <- _; exact T1|]. cbv zeta in H. binv H. binv H. binv H. binv H. binv H. binv H. binv H. injection H as <- _.
    assert (K : kept p1 a3). { eapply kept_trans; [|eapply cell_put_kept; eassumption]. repeat split. cbn. destruct (w_events p1); exact I. }
    apply (kept_acct a3); [|exact (kept_acct _ _ K T1)]. assert (L : exists e, w_events a3 = Live e). { destruct K as (_ & _ & _ & K). unfold ev_block in E0. cbn in E0. destruct (w_events p1); try discriminate. destruct (w_events a3); try contradiction. eauto. }
    destruct L as [e L]. repeat split. cbn. rewrite L. exact I.
  - binv H. binv H. injection H as <- _. exact T.
Qed.
Lemma win_add_acct s a ev d o s' rc : win_add s a ev d o = Ok (s', rc) -> acct (wp s) -> acct (wp s').
Proof.
  unfold win_add. intros H T. destruct (w_polling (wp s)); [exact (submit_acct _ _ _ _ _ _ _ _ H T)|]. cbv zeta in H. destruct (f_op (wf s a) =? _); [injection H as <- _; exact T|]. binv H. destruct a0 as [p1 r]. pose proof (slot_for_acct _ _ _ _ _ E T) as T1.
  destruct r as [[q i]|]; [|injection H as <- _; exact T1]. binv H. binv H. binv H. cbv zeta in H. binv H. binv H. injection H as <- _. cbn [wp].
  eapply kept_acct; [|exact T1]. eapply kept_trans; [eapply set_live_kept; eassumption|]. eapply cell_put_kept; eassumption.
Qed.
Lemma set_kept p p' : w_log p' = w_log p -> w_data p' = w_data p -> w_opnull p' = w_opnull p -> w_events p' = w_events p -> kept p p'.
Proof. intros A B C D. split; [exact A|]. split; [congruence|]. split; [exact C|]. rewrite D. destruct (w_events p); exact I. Qed.
Lemma del_full_kept p q p' : del_full p q = Ok p' -> kept p p'.
Proof.
  unfold del_full. intros H. binv H. binv H. binv H. binv H. binv H. cbv zeta in H. eapply kept_trans; [|eapply cell_put_kept; eassumption].
  eapply kept_trans; [eapply (set_live_kept p); eassumption|]. apply set_kept; reflexivity.
Qed.
Lemma win_del_acct s a ev d o s' rc : win_del s a ev d o = Ok (s', rc) -> acct (wp s) -> acct (wp s').
Proof.
  unfold win_del. intros H T. destruct (w_polling (wp s)); [exact (submit_acct _ _ _ _ _ _ _ _ H T)|]. destruct (Z.land _ ev =? 0); [injection H as <- _; exact T|]. cbv zeta in H.
  match type of H with (if ?b then _ else _) = _ => destruct b end.
  - binv H. injection H as <- _. exact (kept_acct _ _ (del_full_kept _ _ _ E) T).
  - binv H. binv H. binv H. binv H. binv H. cbv zeta in H. binv H. injection H as <- _. cbn [wp]. eapply kept_acct; [|exact T]. eapply kept_trans; [eapply set_live_kept; eassumption|]. eapply cell_put_kept; eassumption.
Qed.
Lemma event_inner_kept p i p' v : event_inner p i = Ok (p', v) -> kept p p'.
Proof.
  unfold event_inner. intros H. binv H. binv H. destruct (pf_fd a0 =? INVALID); [injection H as <- _; apply kept_refl|]. destruct (pf_rev a0 =? 0); [injection H as <- _; apply kept_refl|]. cbv zeta in H. binv H. binv H. binv H. destruct a3 as [p1 v1]. injection H as <- _.
  assert (K0 : kept p (set_rem p (w_rem p - 1))) by (repeat split; cbn; destruct (w_events p); exact I). match type of E3 with (if ?b then _ else _) = _ => destruct b end; [injection E3 as <- _; exact K0|].
  binv E3. injection E3 as <- _. eapply kept_trans; [exact K0|eapply cell_put_kept; eassumption].
Qed.
Lemma fill_loop_kept n : forall p i p', fill_loop p i n = Ok p' -> kept p p'.
Proof.
  induction n as [|n IH]; intros p i p' H; cbn [fill_loop] in H.
  - injection H as <-. repeat split; cbn; destruct (w_events p); exact I.
  - destruct (w_rem p >? 0); [|injection H as <-; repeat split; cbn; destruct (w_events p); exact I]. binv H. destruct a as [p1 v]. pose proof (event_inner_kept _ _ _ _ E) as K. destruct (negb (v =? 0)); [|eapply kept_trans; [exact K|eapply IH; eassumption]].
    binv H. binv H. cbv zeta in H. assert (K2 : forall x, kept p1 (set_res p1 x)) by (intros; repeat split; cbn; destruct (w_events p1); exact I).
    match type of H with (if ?b then _ else _) = _ => destruct b end.
    + injection H as <-. eapply kept_trans; [exact K|]. repeat split; cbn; destruct (w_events p1); exact I.
    + eapply kept_trans; [exact K|]. eapply kept_trans; [apply K2|]. eapply IH; eassumption.
Qed.
Lemma fill_results_kept p p' : fill_results p = Ok p' -> kept p p'.
Proof. intros H. eapply kept_trans; [|eapply fill_loop_kept; exact H]. repeat split; cbn; destruct (w_events p); exact I. Qed.
Lemma process_acct l o : forall s i rc s' rc', process s l o i rc = Ok (s', rc') -> acct (wp s) -> acct (wp s').
Proof.
  induction l as [|op l IH]; intros s i rc s' rc' H T; cbn [process] in H; [injection H as <- _; exact T|]. destruct (o_full op).
  - binv H. eapply IH; [exact H|]. cbn. exact (kept_acct _ _ (del_full_kept _ _ _ E) T).
  - binv H. cbv zeta in H. binv H. destruct a0 as [s1 r1]. assert (T1 : acct (wp s1)). { destruct (negb (o_add op =? 0)); [exact (win_add_acct _ _ _ _ _ _ _ E0 T)|injection E0 as <- _; exact T]. }
    destruct (negb (r1 =? 0)); [exact (IH _ _ _ _ _ H T1)|]. binv H. destruct a0 as [s2 r2]. assert (T2 : acct (wp s2)). { destruct (negb (o_del op =? 0)); [exact (win_del_acct _ _ _ _ _ _ _ E1 T1)|injection E1 as <- _; exact T1]. }
    exact (IH _ _ _ _ _ H T2).
Qed.
Lemma wait_begin_acct s t s' b : wait_begin s t = Ok (s', b) -> acct (wp s) -> acct (wp s').
Proof.
  unfold wait_begin. cbv zeta. intros H T. assert (G : (if w_polling (wp s) then Ok (s, Done (-1)) else if w_rem (wp s) >? 0 then let* p := fill_results (wp s) in Ok (mk_wst p (wf s), Done (zlen (w_res p))) else Ok (mk_wst (set_polling (wp s) true) (wf s), Polls (if t =? -1 then 16 else t))) = Ok (s', b) -> acct (wp s')).
  { intros G. destruct (w_polling (wp s)); [injection G as <- _; exact T|]. destruct (w_rem (wp s) >? 0); [|injection G as <- _; apply (kept_acct (wp s)); [apply set_kept; reflexivity|exact T]]. binv G. injection G as <- _. exact (kept_acct _ _ (fill_results_kept _ _ E) T). }
  destruct (w_events (wp s)); [injection H as <- _; exact T|exact (G H)|exact (G H)].
Qed.
Lemma wait_end_acct s an o s' rc : wait_end s an o = Ok (s', rc) -> acct (wp s) -> acct (wp s').
Proof.
  unfold wait_end. cbv zeta. intros H T. binv H. assert (T1 : acct a).
  { destruct an as [n rv|e]; [|injection E as <-; exact T]. binv E. assert (K := set_live_kept _ _ (store a0 rv) E0). destruct (n >? 0); [|injection E as <-; exact (kept_acct _ _ K T)]. binv E. destruct a1 as [p1 v]. injection E as <-. cbn [fst].
    eapply kept_acct; [|exact T]. eapply kept_trans; [exact K|]. eapply kept_trans; [|eapply event_inner_kept; eassumption]. apply set_kept; reflexivity. }
  match type of H with (if ?b then _ else _) = _ => destruct b end; [injection H as <- _; apply (kept_acct a); [apply set_kept; reflexivity|exact T1]|].
  binv H. destruct a0 as [s1 r1]. assert (T2 : acct (wp s1)) by (eapply process_acct; [exact E0|]; apply (kept_acct a); [apply set_kept; reflexivity|exact T1]).
  destruct (r1 =? 0); [|injection H as <- _; apply (kept_acct (wp s1)); [apply set_kept; reflexivity|exact T2]]. binv H. injection H as <- _. eapply kept_acct; [|exact T2]. eapply kept_trans; [|eapply fill_results_kept; eassumption]. apply set_kept; reflexivity.
Qed.
Lemma would_block_acct s a ev s' : would_block s a ev = Ok s' -> acct (wp s) -> acct (wp s').
Proof.
  unfold would_block. intros H T. destruct (f_pd (wf s a)); [|injection H as <-; exact T]. binv H. destruct (Z.land _ ev =? 0); [injection H as <-; exact T|]. binv H. injection H as <-. exact (kept_acct _ _ (cell_put_kept _ _ _ _ E0) T).
Qed.
Lemma wrun_acct dat l : forall s s' r, wrun dat s l = Ok (s', r) -> acct (wp s) -> acct (wp s').
Proof.
  induction l as [|c l IH]; intros s s' r H T; cbn [wrun] in H; [injection H as <- _; exact T|]. binv H. destruct a as [s1 r1]. cbn [fst snd] in H. binv H. destruct a as [s2 r2]. injection H as <- _. cbn [fst]. apply (IH _ _ _ E0).
  destruct c; cbn [wstep] in E; binv E; try (destruct a as [x y]; injection E as <- _; cbn [fst snd] in * ).
  - destruct a0 as [x y]. injection E as <- _. exact (win_add_acct _ _ _ _ _ _ _ E1 T).
  - destruct a0 as [x y]. injection E as <- _. exact (win_del_acct _ _ _ _ _ _ _ E1 T).
  - exact (wait_begin_acct _ _ _ _ E1 T).
  - exact (wait_end_acct _ _ _ _ _ E1 T).
  - injection E as <- _. exact (would_block_acct _ _ _ _ E1 T).
Qed.
Lemma init_acct f o s : win_init f o = Ok (s, 0) -> acct (wp s).
Proof.
  intros H. destruct (init_state _ _ _ H) as (fd & _ & _ & _ & _ & ->). split; [|discriminate]. cbn [started wp w_log].
  assert (T0 : tidy [] (fun _ => 0)). { intros b. split; [reflexivity|]. intros pre suf E. symmetry in E. apply app_eq_nil in E. destruct E as [-> _]. cbn. lia. }
  change [Got BResults; Got BEvents; Got (BChunk 0)] with ((([] ++ [Got BResults]) ++ [Got BEvents]) ++ [Got (BChunk 0)]).
  apply (tidy_snoc _ (fun b => match b with BResults | BEvents => 1 | _ => 0 end)).
  - apply (tidy_snoc _ (fun b => match b with BResults => 1 | _ => 0 end)); [apply (tidy_snoc _ _ _ _ T0)|]; intros b; destruct b; cbn; lia.
  - intros b. destruct b; cbn [net1 block_eqb]; unfold heldb; cbn [w_events w_data w_opnull]; try lia. rewrite zlen_cons, zlen_nil. destruct (0 <=? i) eqn:A, (i <? 0 + 1) eqn:B, (i =? 0) eqn:C; cbn; lia.
Qed.
Lemma chunks_tidy d : forall l i h, tidy l h -> 0 <= i -> (forall j, h (BChunk j) = if (i <=? j) && (j <? i + zlen d) then 1 else 0) ->
  tidy (l ++ gave_chunks i d) (fun b => match b with BChunk _ => 0 | _ => h b end).
Proof.
  induction d as [|c d IH]; intros l i h T I0 Hc; cbn [gave_chunks].
  - rewrite app_nil_r. apply (tidy_ext _ _ _ T). intros b. destruct b; auto. rewrite Hc, zlen_nil. destruct (i <=? i0) eqn:A, (i0 <? i + 0) eqn:B; cbn; lia.
  - pose proof (zlen_nonneg d). rewrite zlen_cons in Hc. replace (l ++ Gave (BChunk i) :: gave_chunks (i + 1) d) with ((l ++ [Gave (BChunk i)]) ++ gave_chunks (i + 1) d) by (rewrite <- app_assoc; reflexivity).
    set (h' := fun b => match b with BChunk j => if (i + 1 <=? j) && (j <? i + 1 + zlen d) then 1 else 0 | _ => h b end).
    assert (T' : tidy (l ++ [Gave (BChunk i)]) h').
    { apply (tidy_snoc _ _ _ _ T). intros b. assert (Hb := proj1 (T b)). assert (Hl : 0 <= h b <= 1). { rewrite <- Hb. apply (proj2 (T b) l []). rewrite app_nil_r. reflexivity. } unfold h'. destruct b as [| |j|]; cbn [net1 block_eqb]; try lia.
      rewrite Hc. destruct (i <=? j) eqn:A, (j <? i + (zlen d + 1)) eqn:B, (i + 1 <=? j) eqn:C, (j <? i + 1 + zlen d) eqn:D, (j =? i) eqn:F; cbn; lia. }
    apply (tidy_ext _ (fun b => match b with BChunk _ => 0 | _ => h' b end)); [|intros b; destruct b; reflexivity]. apply IH; [exact T'|lia|reflexivity].
Qed.
Lemma term_clean s o pe s' rc : win_term s o pe = Ok (s', rc) -> acct (wp s) -> clean (w_log (wp s')).
Proof.
  unfold win_term. intros H T. assert (Hn := proj2 T). assert (G : (let* r := win_del s WAKE SREAD 0 o in let (s, r1) := (r : wst * Z) in
    let rc := if negb (r1 =? 0) then -1 else if negb (pe =? 0) then -1 else 0 in let p := wp s in let* ev := ev_block p in
    let log := w_log p ++ gave_chunks 0 (w_data p) ++ [Gave BResults; Gave BEvents] ++ (if w_opnull p then [] else [Gave BOps]) in
    Ok (mk_wst (mk_wpoll 0 0 Null [] (w_ops p) (w_opcap p) (w_opnull p) (w_polling p) (w_rem p) (w_off p) (w_res p) log) (wf s), rc)) = Ok (s', rc)) by (destruct (w_events (wp s)); [contradiction|exact H|exact H]).
  clear H. binv G. destruct a as [s1 r1]. pose proof (win_del_acct _ _ _ _ _ _ _ E T) as T1. cbv zeta in G. binv G. injection G as <- _. cbn [wp w_log]. clear E T. set (p := wp s1) in *. unfold ev_block in E0. destruct (w_events p) eqn:Ev; try discriminate.
  pose proof (chunks_tidy (w_data p) (w_log p) 0 (heldb p) (proj1 T1) ltac:(lia) ltac:(intros j; reflexivity)) as T2. set (l2 := w_log p ++ gave_chunks 0 (w_data p)) in *.
  assert (T3 : tidy (l2 ++ [Gave BResults]) (fun b => match b with BEvents => 1 | BOps => if w_opnull p then 0 else 1 | _ => 0 end)).
  { apply (tidy_snoc _ _ _ _ T2). intros b. unfold heldb. rewrite Ev. destruct b; cbn; try destruct (w_opnull p); lia. }
  assert (T4 : tidy ((l2 ++ [Gave BResults]) ++ [Gave BEvents]) (fun b => match b with BOps => if w_opnull p then 0 else 1 | _ => 0 end)).
  { apply (tidy_snoc _ _ _ _ T3). intros b. destruct b; cbn; try destruct (w_opnull p); lia. }
  assert (T5 : tidy (((l2 ++ [Gave BResults]) ++ [Gave BEvents]) ++ (if w_opnull p then [] else [Gave BOps])) (fun b => 0)).
  { destruct (w_opnull p); [rewrite app_nil_r; apply (tidy_ext _ _ _ T4); intros b; destruct b; reflexivity|]. apply (tidy_snoc _ _ _ _ T4). intros b. destruct b; cbn; lia. }
  refine (eq_ind _ clean T5 _ _). unfold l2. rewrite <- !app_assoc. reflexivity.
Qed.
Lemma init_clean f o s rc : win_init f o = Ok (s, rc) -> rc <> 0 -> clean (w_log (wp s)).
Proof.
  unfold win_init. intros H Hr.
  assert (Pre : forall (l : list mact), clean l -> w_log (wp s) = l -> clean (w_log (wp s))) by (intros l C ->; exact C).
  assert (C0 : tidy [] (fun _ => 0)). { intros b. split; [reflexivity|]. intros pre suf E. symmetry in E. apply app_eq_nil in E. destruct E as [-> _]. cbn. lia. }
  assert (C1 : tidy [Got BResults] (fun b => match b with BResults => 1 | _ => 0 end)) by (apply (tidy_snoc [] _ _ _ C0); intros b; destruct b; cbn; lia).
  assert (C2 : tidy [Got BResults; Got BEvents] (fun b => match b with BResults | BEvents => 1 | _ => 0 end)) by (apply (tidy_snoc [Got BResults] _ _ _ C1); intros b; destruct b; cbn; lia).
  destruct (i_results o); cbn [negb] in H; [|injection H as <- _; exact C0]. destruct (i_events o); cbn [negb] in H.
  2:{ injection H as <- _. cbn. apply (tidy_snoc [Got BResults] _ _ _ C1). intros b; destruct b; cbn; lia. }
  destruct (i_data o); cbn [negb] in H.
  2:{ injection H as <- _. cbn. assert (C3 : tidy [Got BResults; Got BEvents; Gave BResults] (fun b => match b with BEvents => 1 | _ => 0 end)) by (apply (tidy_snoc [Got BResults; Got BEvents] _ _ _ C2); intros b; destruct b; cbn; lia).
      apply (tidy_snoc [Got BResults; Got BEvents; Gave BResults] _ _ _ C3). intros b; destruct b; cbn; lia. }
  destruct (i_pipe o) as [fd|].
  - exfalso. cbv zeta in H. binv H. destruct a as [s1 r1]. injection H as _ H. congruence.
  - injection H as <- _. cbn.
    assert (C3 : tidy [Got BResults; Got BEvents; Got (BChunk 0)] (fun b => match b with BResults | BEvents => 1 | BChunk i => if i =? 0 then 1 else 0 | _ => 0 end)) by (apply (tidy_snoc [Got BResults; Got BEvents] _ _ _ C2); intros b; destruct b; cbn; try destruct (_ =? 0); lia).
    assert (C4 : tidy [Got BResults; Got BEvents; Got (BChunk 0); Gave BResults] (fun b => match b with BEvents => 1 | BChunk i => if i =? 0 then 1 else 0 | _ => 0 end)) by (apply (tidy_snoc [Got BResults; Got BEvents; Got (BChunk 0)] _ _ _ C3); intros b; destruct b; cbn; try destruct (_ =? 0); lia).
    assert (C5 : tidy [Got BResults; Got BEvents; Got (BChunk 0); Gave BResults; Gave BEvents] (fun b => match b with BChunk i => if i =? 0 then 1 else 0 | _ => 0 end)) by (apply (tidy_snoc [Got BResults; Got BEvents; Got (BChunk 0); Gave BResults] _ _ _ C4); intros b; destruct b; cbn; try destruct (_ =? 0); lia).
    apply (tidy_snoc [Got BResults; Got BEvents; Got (BChunk 0); Gave BResults; Gave BEvents] _ _ _ C5). intros b; destruct b; cbn; try destruct (_ =? 0); lia.
Qed.
