(** Property C149: crashes while a crash is reported. *)
From Verif Require Import Base CStr StrSpec SigModel SigSpec SigProofs FatalModel FatalProps CrashModel.
From Coq Require Import ZifyBool Permutation.

(** A crash signal, with the buffers of the handler and the instruction pointer. *)
Definition event_ok (e : cevent) : Prop :=
  match e with
  | Go => True
  | Crash sig junk buf caller => In sig crash_signals /\ zlen junk = 32 /\ zlen buf = 4096 /\ match caller with Some v => 0 <= v < 2^64 | None => True end
  end.
(** The process after a successful sc_signal_init, no handler running. *)
Definition installed (d : Z -> action) : crash := mk_crash d [] [] [] None.
(** What the handler of [sig] did, in turn. *)
Definition by_sig (sig : Z) (c : crash) : list fact := map (fun x => snd (fst x)) (filter (fun x => fst (fst x) =? sig) (cdone c)).
(** All that the handler of [sig] is to do: the report (C92), then close, reset and kill. *)
Definition whole_report (fd sig : Z) (w : list fact) : Prop :=
  exists d c, numeral 10 sig d /\ match c with Some t => exists v, numeral 16 v t | None => True end /\
    w = report fd sig d c ++ [Shut fd; Set_ sig (mk_action Default true true); Kill sig].

Lemma numeral_some base : 2 <= base -> forall n, 0 <= n -> exists t, numeral base n t.
Proof.
  intros Hb. assert (G : forall k n, 0 <= n < Z.of_nat k -> exists ds, Forall (fun d => 0 <= d < base) ds /\ value base ds = n /\ ds <> [] /\ (hd 0 ds = 0 -> ds = [0])).
  { induction k as [|k IH]; intros n Hn; [lia|]. destruct (Z.lt_ge_cases n base) as [Hs|Hs].
    - exists [n]. split; [repeat constructor; lia|]. split; [unfold value; cbn; lia|]. split; [discriminate|]. cbn. intros ->. reflexivity.
    - pose proof (Z.div_mod n base ltac:(lia)) as E. pose proof (Z.mod_pos_bound n base ltac:(lia)) as Hm.
      assert (Hq : 0 < n / base < n) by (split; [apply Z.div_str_pos; lia|apply Z.div_lt; lia]).
      destruct (IH (n / base) ltac:(lia)) as (ds & F & V & N & H). exists (ds ++ [n mod base]). split; [apply Forall_app; split; [exact F|repeat constructor; lia]|].
      split; [unfold value in *; rewrite fold_left_app; cbn [fold_left]; rewrite V; lia|]. split; [destruct ds; discriminate|].
      intro H0. exfalso. destruct ds as [|x ds]; [contradiction|]. cbn in H0. subst x. specialize (H eq_refl). injection H as ->. unfold value in V. cbn in V. lia. }
  intros n Hn. destruct (G (S (Z.to_nat n)) n ltac:(lia)) as (ds & H). exists (map digit_char ds), ds. tauto.
Qed.
Lemma in_crash sig : In sig crash_signals -> 0 < sig < 2 ^ 31.
Proof. intro H. cbn in H. decompose [or] H; subst; try lia; contradiction. Qed.

(** Actions of the handler before it kills. *)
Definition tame (sig : Z) (f : fact) : Prop :=
  match f with Log _ | Trace _ | Shut _ => True | Set_ g a => g = sig /\ hnd a = Default | Kill _ => False end.
Lemma whole_shape fd sig w : whole_report fd sig w -> exists pre, w = pre ++ [Kill sig] /\ Forall (tame sig) pre /\ (length w <= 9)%nat.
Proof.
  intros (d & c & _ & _ & ->). exists (report fd sig d c ++ [Shut fd; Set_ sig (mk_action Default true true)]). split; [rewrite <- app_assoc; reflexivity|].
  unfold report. destruct c; cbn [app length]; (split; [repeat (apply Forall_cons; [cbn; auto|]); constructor|lia]).
Qed.
Lemma arrive_list s sig junk buf caller : event_ok (Crash sig junk buf caller) -> exists w, on_fatal junk buf caller s sig = Ok w /\ whole_report (if log_fd s =? -1 then 2 else log_fd s) sig w.
Proof.
  intros (Hi & Hj & Hb & Hc). pose proof (in_crash sig Hi) as Hs. destruct (numeral_some 10 ltac:(lia) sig ltac:(lia)) as (d & Hd).
  assert (T : exists t, match caller, t with Some v, Some t => 0 <= v < 2 ^ 64 /\ numeral 16 v t | None, None => True | _, _ => False end).
  { destruct caller as [v|]; [|exists None; exact I]. destruct (numeral_some 16 ltac:(lia) v ltac:(lia)) as (t & Ht). exists (Some t). auto. }
  destruct T as (t & Ht). eexists. split; [apply (on_fatal_ok junk buf caller s sig d t Hj Hb Hs Hd Ht)|]. exists d, t. split; [exact Hd|]. split; [|reflexivity].
  destruct t as [t|]; [|exact I]. destruct caller as [v|]; [|contradiction]. exists v. tauto.
Qed.

Section Run.
Context (s : sigs).
Local Notation fd := (if log_fd s =? -1 then 2 else log_fd s).
Record inv (c : crash) : Prop := mk_inv {
  i_nodup : NoDup (map fst (cstack c)); i_incl : incl (map fst (cstack c)) crash_signals;
  i_in : forall g, In g (map fst (cstack c)) -> hnd (cdisp c g) = Default;
  i_out : forall g, In g crash_signals -> ~ In g (map fst (cstack c)) -> hnd (cdisp c g) = Fatal /\ resethand (cdisp c g) = true /\ by_sig g c = [];
  i_frames : forall g l, In (g, l) (cstack c) -> exists w, whole_report fd g w /\ w = by_sig g c ++ l }.
(** What remains to do at most. *)
Fixpoint todo (l : list (Z * list fact)) : nat := match l with [] => 0 | (_, x) :: l => length x + todo l end.
Definition live (c : crash) : Prop := forall g l, In (g, l) (cstack c) -> exists q, l = q ++ [Kill g] /\ Forall (tame g) q.
Definition potential (c : crash) : nat := todo (cstack c) + 10 * (5 - length (cstack c)).
(** After the end. *)
Definition ended (c : crash) (g : Z) : Prop :=
  In g crash_signals /\ In g (map fst (cstack c)) /\ NoDup (map fst (cstack c)) /\ incl (map fst (cstack c)) crash_signals /\
  (forall g, ~ In g (map fst (cstack c)) -> In g crash_signals -> by_sig g c = []) /\
  (forall g, In g (map fst (cstack c)) -> exists w l, whole_report fd g w /\ w = by_sig g c ++ l).
Lemma by_sig_snoc g c f ok sig d st cl dd : by_sig g (mk_crash d st cl (cdone c ++ [(sig, f, ok)]) dd) = by_sig g c ++ (if sig =? g then [f] else []).
Proof. unfold by_sig. cbn [cdone]. rewrite filter_app, map_app. cbn [filter fst]. destruct (sig =? g); reflexivity. Qed.
Lemma depth c : inv c -> (length (cstack c) <= 5)%nat.
Proof. intros []. pose proof (NoDup_incl_length i_nodup0 i_incl0) as H. rewrite map_length in H. exact H. Qed.
Lemma inv_ended c g d : inv c -> dead d = Some g -> cstack d = cstack c -> cdone d = cdone c -> In g (map fst (cstack c)) -> ended d g.
Proof.
  intros [I1 I2 I3 I4 I5] _ Hs Hd Hg. unfold ended. rewrite Hs. assert (B : forall x, by_sig x d = by_sig x c) by (intro x; unfold by_sig; now rewrite Hd).
  split; [now apply I2|]. split; [exact Hg|]. split; [exact I1|]. split; [exact I2|]. split.
  - intros x N Hx. rewrite B. now destruct (I4 x Hx N) as (_ & _ & E).
  - intros x Hx. apply in_map_iff in Hx as ([y l] & E & Hin). cbn in E. subst y. destruct (I5 x l Hin) as (w & W & Ew). exists w, l. rewrite B. auto.
Qed.
Lemma arrive_ok c sig junk buf caller : inv c -> live c -> dead c = None -> event_ok (Crash sig junk buf caller) ->
  exists d, arrive s c sig junk buf caller = Ok d /\
    ((dead d = None /\ inv d /\ live d /\ (potential d < potential c)%nat /\ length (cstack d) = S (length (cstack c))) \/ ended d sig /\ dead d = Some sig).
Proof.
  intros I Hlv Hd He. pose proof I as [I1 I2 I3 I4 I5]. pose proof He as (Hin & _). unfold arrive.
  destruct (in_dec Z.eq_dec sig (map fst (cstack c))) as [Hs|Hs].
  - rewrite (I3 sig Hs). eexists. split; [reflexivity|]. right. split; [|reflexivity]. eapply inv_ended; eauto.
  - destruct (I4 sig Hin Hs) as (Hh & Hr & Hb). rewrite Hh, Hr. destruct (arrive_list s sig junk buf caller He) as (w & -> & W). cbn [bind].
    eexists. split; [reflexivity|]. left. split; [reflexivity|].
    assert (B : forall g d st cl dd, by_sig g (mk_crash d st cl (cdone c) dd) = by_sig g c) by reflexivity.
    assert (I' : inv (mk_crash (sigaction true sig (mk_action Default (nodefer (cdisp c sig)) true) (cdisp c)) ((sig, w) :: cstack c) (closed c) (cdone c) None)).
    { constructor; cbn [cstack cdisp map fst].
      - constructor; assumption.
      - intros x [<-|Hx]; [exact Hin|now apply I2].
      - intros g Hg. unfold sigaction. cbn [andb]. destruct (Z.eqb_spec g sig); [reflexivity|]. destruct Hg as [Hg|Hg]; [congruence|]. now apply I3.
      - intros g Hg N. unfold sigaction. cbn [andb]. destruct (Z.eqb_spec g sig) as [->|]; [exfalso; apply N; now left|]. rewrite B. apply I4; [exact Hg|]. intro; apply N; now right.
      - intros g l [E|Hl]; rewrite B; [injection E as <- <-; exists w; rewrite Hb; auto|now apply I5]. }
    split; [exact I'|]. destruct (whole_shape _ _ _ W) as (pre & Ep & Ft & L).
    split; [intros g l [E|Hl]; [injection E as <- <-; exists pre; auto|now apply Hlv]|]. pose proof (depth _ I') as D. cbn [cstack length] in D. split; [|reflexivity]. unfold potential. cbn [cstack todo length].
    lia.
Qed.
Lemma go_ok c : inv c -> live c -> dead c = None -> cstack c <> [] ->
  exists d, go c = Ok d /\ ((dead d = None /\ inv d /\ live d /\ (potential d < potential c)%nat /\ map fst (cstack d) = map fst (cstack c)) \/ exists g, ended d g /\ dead d = Some g /\ hd_error (map fst (cstack c)) = Some g).
Proof.
  intros I Hlv Hd Hne. pose proof I as [I1 I2 I3 I4 I5]. unfold go. destruct (cstack c) as [|[sig l] r] eqn:Es; [contradiction|]. clear Hne. cbn [map fst] in *.
  destruct (I5 sig l (or_introl eq_refl)) as (w & W & Ew).
  assert (Hl : exists f l', l = f :: l' /\ (tame sig f /\ (exists q, l' = q ++ [Kill sig] /\ Forall (tame sig) q) \/ f = Kill sig /\ l' = [])).
  { destruct (Hlv sig l) as (q & -> & Hq); [rewrite Es; now left|]. destruct Hq as [|f q Hf Hq]; [exists (Kill sig), []; auto|]. exists f, (q ++ [Kill sig]). split; [reflexivity|]. left. eauto. }
  destruct Hl as (f & l' & -> & Hf).
  set (ok := match fact_fd f with Some x => negb (existsb (Z.eqb x) (closed c)) | None => true end).
  assert (K : forall d' cl, (forall g, In g crash_signals -> g <> sig -> d' g = cdisp c g) -> hnd (d' sig) = Default ->
     inv (mk_crash d' ((sig, l') :: r) cl (cdone c ++ [(sig, f, ok)]) None)).
  { intros d' cl D1 D2. pose proof I1 as I1'. apply NoDup_cons_iff in I1' as [N1 N2]. constructor; cbn [cstack cdisp map fst].
    - exact I1.
    - exact I2.
    - intros g Hg. destruct (Z.eq_dec g sig) as [->|Ng]; [exact D2|]. rewrite D1; [now apply I3|now apply I2|exact Ng].
    - intros g Hg N. assert (Ng : g <> sig) by (intro; subst; apply N; now left). rewrite by_sig_snoc. replace (sig =? g) with false by lia. rewrite app_nil_r, D1 by assumption. now apply I4.
    - intros g x [E|Hx].
      + injection E as <- <-. exists w. split; [exact W|]. rewrite by_sig_snoc, Z.eqb_refl, <- app_assoc. exact Ew.
      + assert (Ng : sig <> g) by (intros ->; apply N1; change g with (fst (g, x)); now apply in_map). rewrite by_sig_snoc. replace (sig =? g) with false by lia. rewrite app_nil_r. apply I5. now right. }
  assert (P : forall d' cl dn dd, (potential (mk_crash d' ((sig, l') :: r) cl dn dd) < potential c)%nat) by (intros; unfold potential; rewrite Es; cbn [cstack todo length]; lia).
  destruct Hf as [[Ht Hq]|[-> ->]].
  - assert (L : forall d' cl dn dd, live (mk_crash d' ((sig, l') :: r) cl dn dd)) by (intros d' cl dn dd g x [E|Hx]; [injection E as <- <-; exact Hq|apply Hlv; rewrite Es; now right]).
    destruct f as [a|x|x|g a|g]; cbn [tame] in Ht; try contradiction; (eexists; split; [reflexivity|]; left; split; [reflexivity|]; split; [|split; [apply L|split; [apply P|reflexivity]]]).
    + apply K; [reflexivity|apply I3; now left].
    + apply K; [reflexivity|apply I3; now left].
    + apply K; [reflexivity|apply I3; now left].
    + destruct Ht as [-> Ha]. apply K; [intros g _ Ng; unfold sigaction; replace (g =? sig) with false by lia; reflexivity|]. unfold sigaction. rewrite Z.eqb_refl. exact Ha.
  - rewrite (I3 sig (or_introl eq_refl)). eexists. split; [reflexivity|]. right. exists sig. split; [|split; reflexivity].
    eapply inv_ended; [apply (K (cdisp c) (closed c)); [reflexivity|apply I3; now left]|reflexivity|reflexivity|reflexivity|now left].
Qed.
End Run.

(** The signals of a schedule. *)
Fixpoint arriving (l : list cevent) : list Z := match l with [] => [] | Go :: l => arriving l | Crash sig _ _ _ :: l => sig :: arriving l end.
(** What is promised of every state. *)
Definition sound (s : sigs) (c : crash) : Prop :=
  NoDup (map fst (cstack c)) /\ incl (map fst (cstack c)) crash_signals /\
  (forall g, In g crash_signals -> by_sig g c = [] \/ exists w rest, whole_report (if log_fd s =? -1 then 2 else log_fd s) g w /\ w = by_sig g c ++ rest).
Lemma inv_sound s c : inv s c -> sound s c.
Proof.
  intros [I1 I2 I3 I4 I5]. split; [exact I1|]. split; [exact I2|]. intros g Hg. destruct (in_dec Z.eq_dec g (map fst (cstack c))) as [Hs|Hs].
  - right. apply in_map_iff in Hs as ([x l] & E & Hin). cbn in E. subst x. destruct (I5 g l Hin) as (w & W & E). eauto.
  - left. now apply I4.
Qed.
Lemma ended_sound s c g : ended s c g -> sound s c.
Proof.
  intros (_ & _ & I1 & I2 & I4 & I5). split; [exact I1|]. split; [exact I2|]. intros x Hx. destruct (in_dec Z.eq_dec x (map fst (cstack c))) as [Hs|Hs]; [right; now apply I5|left; now apply I4].
Qed.
Lemma run_dead s c g l : dead c = Some g -> crash_run s c l = Ok c.
Proof. intro H. destruct l as [|e l]; cbn [crash_run]; [reflexivity|]. now rewrite H. Qed.
Lemma run_ok s l : Forall event_ok l -> forall c, inv s c -> live c -> dead c = None ->
  exists c', crash_run s c l = Ok c' /\ sound s c' /\ (forall g, dead c' = Some g -> In g (map fst (cstack c)) \/ In g (arriving l)) /\
    (cstack c <> [] -> (potential c <= length l)%nat -> dead c' <> None).
Proof.
  intros Hl. induction Hl as [|e l He Hl IH]; intros c I L D; cbn [crash_run].
  - exists c. split; [reflexivity|]. split; [now apply inv_sound|]. split; [congruence|]. intros N P. exfalso.
    destruct (cstack c) as [|[g x] r] eqn:E; [contradiction|]. destruct (L g x) as (q & -> & _); [rewrite E; now left|]. unfold potential in P. rewrite E in P. cbn [todo] in P. rewrite app_length in P. cbn in P. lia.
  - rewrite D. destruct e as [|sig junk buf caller]; cbn [arriving].
    + destruct (cstack c) as [|f r] eqn:Es.
      * unfold go at 1. rewrite Es. cbn [bind]. destruct (IH c I L D) as (c' & R & S & Dd & _). exists c'. rewrite Es in Dd. cbn in *. split; [exact R|]. split; [exact S|]. split; [exact Dd|]. contradiction.
      * destruct (go_ok s c I L D) as (c1 & -> & H); [congruence|]. cbn [bind]. destruct H as [(D1 & I1 & L1 & P1 & N1)|(g & G & Dg & Hg)].
        -- destruct (IH c1 I1 L1 D1) as (c' & R & S & Dd & T). exists c'. split; [exact R|]. split; [exact S|]. split; [rewrite N1, Es in Dd; exact Dd|].
           intros _ P. apply T; [intro Z0; rewrite Z0, Es in N1; discriminate|cbn [length] in P; lia].
        -- exists c1. rewrite (run_dead _ _ _ _ Dg). split; [reflexivity|]. split; [eapply ended_sound; eauto|]. split; [intros g' E; left; rewrite Dg in E; injection E as <-; rewrite Es in Hg; cbn in Hg; injection Hg as <-; now left|congruence].
    + destruct (arrive_ok s c sig junk buf caller I L D He) as (c1 & E1 & H). rewrite E1. cbn [bind]. destruct H as [(D1 & I1 & L1 & P1 & N1)|(G & Dg)].
      * destruct (IH c1 I1 L1 D1) as (c' & R & S & Dd & T). exists c'. split; [exact R|]. split; [exact S|]. split.
        -- intros g Hg. destruct (Dd g Hg) as [Hx|Hx]; [|right; now right]. unfold arrive in E1. destruct (hnd (cdisp c sig)); try discriminate E1; [injection E1 as <-; discriminate D1|].
           destruct on_fatal as [w| |]; cbn [bind] in E1; try discriminate E1. injection E1 as <-. cbn in Hx. destruct Hx as [<-|Hx]; [right; now left|now left].
        -- intros _ P. apply T; [intro Z0; rewrite Z0 in N1; discriminate|cbn [length] in P; lia].
      * exists c1. rewrite (run_dead _ _ _ _ Dg). split; [reflexivity|]. split; [eapply ended_sound; eauto|]. split; [intros g' E; rewrite Dg in E; injection E as <-; right; now left|congruence].
Qed.

(** However crash signals arrive after sc_signal_init, between any two actions of the handlers: no undefined behaviour; each handler is
    entered at most once and does its report, close, reset and kill in that order, not necessarily to the end; the process is ended only by one
    of the signals that arrived, and it is ended after at most 50 more events, whatever they are. *)
Theorem crash_nested : forall s d l, (forall g, In g crash_signals -> d g = mk_action Fatal true true) -> Forall event_ok l ->
  exists c, crash_run s (installed d) l = Ok c /\ sound s c /\
    (forall g, dead c = Some g -> In g (arriving l)) /\
    (forall sig j b k l', l = Crash sig j b k :: l' -> (50 <= length l')%nat -> dead c <> None).
Proof.
  intros s d l Hd Hl. assert (I : inv s (installed d)).
  { constructor; cbn; [constructor|intros ? []|intros ? []| |intros ? ? []]. intros g Hg _. rewrite Hd by exact Hg. auto. }
  assert (L : live (installed d)) by (intros ? ? []).
  destruct (run_ok s l Hl _ I L eq_refl) as (c & R & S & D & T). exists c. split; [exact R|]. split; [exact S|].
  split; [intros g Hg; destruct (D g Hg) as [[]|H]; exact H|].
  intros sig j b k l' -> Hlen. inversion Hl as [|? ? He Hl']; subst. cbn [crash_run] in R. change (dead (installed d)) with (@None Z) in R. cbn iota in R.
  destruct (arrive_ok s _ sig j b k I L eq_refl He) as (c1 & E1 & H). rewrite E1 in R. cbn [bind] in R. destruct H as [(D1 & I1 & L1 & P1 & N1)|(G & Dg)].
  - destruct (run_ok s l' Hl' c1 I1 L1 D1) as (c2 & R2 & _ & _ & T2). rewrite R in R2. injection R2 as <-. apply T2; [intro Z0; rewrite Z0 in N1; discriminate|].
    unfold potential in P1 at 2. cbn in P1. lia.
  - rewrite (run_dead _ _ _ _ Dg) in R. injection R as <-. congruence.
Qed.
Print Assumptions crash_nested.

(** Which writes get through: an action on a descriptor fails exactly if some handler has closed that descriptor before; the
    descriptor is the same for all. *)
Definition told (c : crash) : Prop := forall pre g f ok post, cdone c = pre ++ (g, f, ok) :: post ->
  (ok = false <-> exists x g' k, fact_fd f = Some x /\ In (g', Shut x, k) pre).
Lemma told_run s l : forall c c', (forall x, In x (closed c) <-> exists g k, In (g, Shut x, k) (cdone c)) -> told c -> crash_run s c l = Ok c' -> told c'.
Proof.
  assert (Snoc : forall c sig f ok d st cl dd, told c -> (ok = false <-> exists x g' k, fact_fd f = Some x /\ In (g', Shut x, k) (cdone c)) -> told (mk_crash d st cl (cdone c ++ [(sig, f, ok)]) dd)).
  { intros c sig f ok d st cl dd T H pre g f' ok' post E. cbn [cdone] in E. destruct post as [|y post] using rev_ind.
    - apply app_inj_tail in E as [<- E]. injection E as <- <- <-. exact H.
    - clear IHpost. rewrite app_comm_cons, app_assoc in E. apply app_inj_tail in E as [E _]. eapply T; eauto. }
  induction l as [|e l IH]; intros c c' C T R; cbn [crash_run] in R; [injection R as <-; exact T|].
  destruct (dead c); [injection R as <-; exact T|]. destruct e as [|sig junk buf caller].
  - destruct (go c) as [c1| |] eqn:G; cbn [bind] in R; try discriminate. revert R. apply IH; unfold go in G; destruct (cstack c) as [|[sig [|f q]] r]; try (injection G as <-; assumption).
    + set (ok := match fact_fd f with Some x => negb (existsb (Z.eqb x) (closed c)) | None => true end) in G.
      assert (N : forall x, (exists g k, In (g, Shut x, k) (cdone c ++ [(sig, f, ok)])) <-> f = Shut x \/ In x (closed c)).
      { intro x. rewrite C. split; [intros (g & k & H); apply in_app_iff in H as [H|[H|[]]]; [right; eauto|left; congruence]|]. intros [->|(g & k & H)]; [exists sig, ok; apply in_app_iff; right; now left|exists g, k; apply in_app_iff; now left]. }
      destruct f as [a|y|y|g a|g]; try (destruct (hnd (cdisp c g)); try discriminate); injection G as <-; intro x; cbn [closed cdone]; rewrite N; cbn [In]; split; try tauto; intuition congruence.
    + set (ok := match fact_fd f with Some x => negb (existsb (Z.eqb x) (closed c)) | None => true end) in G.
      assert (O : ok = false <-> exists x g' k, fact_fd f = Some x /\ In (g', Shut x, k) (cdone c)).
      { unfold ok. destruct (fact_fd f) as [x|].
        - rewrite negb_false_iff, existsb_exists. split.
          + intros (y & Hy & E). apply Z.eqb_eq in E. subst y. apply C in Hy as (g & k & H). eauto.
          + intros (y & g & k & E & H). injection E as <-. exists x. split; [apply C; eauto|apply Z.eqb_refl].
        - split; [discriminate|]. intros (x & g & k & E & _). discriminate. }
      destruct f as [a|y|y|g a|g]; try (destruct (hnd (cdisp c g)); try discriminate); injection G as <-; apply Snoc; assumption.
  - unfold arrive in R. destruct (hnd (cdisp c sig)); cbn [bind] in R; try discriminate.
    + revert R. apply IH; assumption.
    + destruct on_fatal; cbn [bind] in R; try discriminate. revert R. apply IH; assumption.
Qed.
Theorem crash_writes : forall s d l c, crash_run s (installed d) l = Ok c -> told c.
Proof. intros s d l c. apply told_run; [intro x; cbn; split; [contradiction|intros (? & ? & [])]|]. intros pre g f ok post E. destruct pre; discriminate. Qed.
Print Assumptions crash_writes.
Definition crash_at (sig : Z) : cevent := Crash sig (repeat 0 32) (repeat 0 (Z.to_nat 4096)) (Some 255).
Definition all_fatal (g : Z) : action := mk_action Fatal true true.
(** Two crashes, the second in the middle of the report of the first: killed by the second. *)
Example crash_nested_ex : Forall event_ok [crash_at 11; Go; Go; crash_at 6; Go] /\
  (let* c := crash_run (mk_sigs 9 (-1) false 0) (installed all_fatal) ([crash_at 11; Go; Go; crash_at 6] ++ repeat Go 20) in
   Ok (dead c, length (by_sig 11 c), length (by_sig 6 c), existsb (fun x => negb (snd x)) (cdone c))) = Ok (Some 6, 2%nat, 9%nat, false).
Proof. split; [|vm_compute; reflexivity]. repeat (apply Forall_cons; [first [exact I|split; [cbn; tauto|split; [reflexivity|split; [reflexivity|lia]]]]|]). constructor. Qed.
(** Not promised: that the crash that ends the process is reported.  A crash after the descriptor was closed is not: nothing of its report
    is written. *)
Theorem crash_lost_refuted : exists l c, Forall event_ok l /\ crash_run (mk_sigs 9 (-1) false 0) (installed all_fatal) l = Ok c /\
  dead c = Some 6 /\ length (by_sig 6 c) = 9%nat /\ forall f ok, In (6, f, ok) (cdone c) -> fact_fd f <> None -> ok = false.
Proof.
  exists ([crash_at 11] ++ repeat Go 7 ++ [crash_at 6] ++ repeat Go 9). eexists. split.
  - cbn [repeat app]. repeat (apply Forall_cons; [first [exact I|split; [cbn; tauto|split; [reflexivity|split; [reflexivity|lia]]]]|]). constructor.
  - split; [vm_compute; reflexivity|]. split; [reflexivity|]. split; [reflexivity|]. intros f ok H N. cbn [cdone In] in H.
    repeat (destruct H as [H|H]; [first [discriminate H|injection H as <- <-; cbn in N; congruence]|]). contradiction.
Qed.
Print Assumptions crash_lost_refuted.
