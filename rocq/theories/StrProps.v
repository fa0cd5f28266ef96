(** Properties C37-C41 of the string module. *)
From Verif Require Import Base CStr StrModel StrSpec StrProofs.
From Coq Require Import ZifyBool.

(** ** C37 (and the in-history form of C38, C39) *)
(** Every operation on a string variable that holds the bytes [c]: it succeeds
    with the contents the operation is meant to produce, or fails, without
    memory or for a stated reason, and the string is unchanged.  Never UB. *)
Theorem str_step_partial :
  forall fuel v c o a, holds v c -> sop_ok c o -> (length (match c with None => [] | Some t => t end) < fuel)%nat ->
    exists v' c' ok, sstep fuel v o a = Ok (v', ok) /\ holds v' c' /\
      ((ok = true /\ effect o c c') \/ (ok = false /\ c' = c /\ v' = v /\ (a = None \/ refused o c))).
Proof.
  intros fuel v c o a [-> Hc] Ho Hf.
  assert (Keep : forall ok, sstep fuel (option_map (fun t => mk_sstr (zlen t) (t ++ [0])) c) o a
      = Ok (option_map (fun t => mk_sstr (zlen t) (t ++ [0])) c, ok) ->
    ((ok = true /\ effect o c c) \/ (ok = false /\ (a = None \/ refused o c))) ->
    exists v' c' ok, sstep fuel (option_map (fun t => mk_sstr (zlen t) (t ++ [0])) c) o a = Ok (v', ok) /\ holds v' c' /\
      ((ok = true /\ effect o c c') \/ (ok = false /\ c' = c /\ v' = option_map (fun t => mk_sstr (zlen t) (t ++ [0])) c /\
         (a = None \/ refused o c)))).
  { intros ok E H. exists (option_map (fun t => mk_sstr (zlen t) (t ++ [0])) c), c, ok. split; [exact E|].
    split; [split; [reflexivity|exact Hc]|]. tauto. }
  assert (Done : forall t', zlen t' <= STR_MAX -> effect o c (Some t') ->
    sstep fuel (option_map (fun t => mk_sstr (zlen t) (t ++ [0])) c) o a = Ok (Some (mk_sstr (zlen t') (t' ++ [0])), true) ->
    exists v' c' ok, sstep fuel (option_map (fun t => mk_sstr (zlen t) (t ++ [0])) c) o a = Ok (v', ok) /\ holds v' c' /\
      ((ok = true /\ effect o c c') \/ (ok = false /\ c' = c /\ v' = option_map (fun t => mk_sstr (zlen t) (t ++ [0])) c /\
         (a = None \/ refused o c)))).
  { intros t' Hl He E. exists (Some (mk_sstr (zlen t') (t' ++ [0]))), (Some t'), true. split; [exact E|].
    split; [split; [reflexivity|exact Hl]|]. auto. }
  destruct o as [p|x|p|x|i j|set|pat w|]; cbn [sstep] in *.
  - unfold str_set in *. destruct p as [p|].
    + rewrite create_ok in * by exact Ho. cbn [bind] in *. destruct (Z.ltb_spec STR_MAX (zlen p)).
      { apply (Keep false); [reflexivity|right; split; [reflexivity|right; exact H]]. }
      destruct a as [j|]; [|apply (Keep false); [reflexivity|auto]].
      apply (Done p); [exact H|split; [discriminate|reflexivity]|reflexivity].
    + apply (Keep false); [reflexivity|right; split; [reflexivity|right; exact I]].
  - unfold str_set_fmt in *. destruct x as [x|].
    + destruct Ho as [H1 H2]. rewrite create_fmt_ok in * by lia. cbn [bind] in *.
      destruct a as [j|]; [|apply (Keep false); [reflexivity|auto]].
      apply (Done x); [unfold STR_MAX; lia|split; [discriminate|reflexivity]|reflexivity].
    + apply (Keep false); [reflexivity|right; split; [reflexivity|right; reflexivity]].
  - destruct Ho as [H1 H2]. destruct c as [t|]; cbn [option_map] in *.
    + rewrite append_ok in * by (exact H1 || exact H2 || exact Hc). destruct (Z.ltb_spec STR_MAX (zlen p + zlen t)).
      { apply (Keep false); [reflexivity|right; split; [reflexivity|right; exact H]]. }
      destruct a as [j|]; [|apply (Keep false); [reflexivity|auto]].
      apply (Done (t ++ p)); [rewrite zlen_app; lia|reflexivity|reflexivity].
    + unfold str_append in *. rewrite create_ok in * by exact H1. cbn [bind] in *. destruct (Z.ltb_spec STR_MAX (zlen p)).
      { apply (Keep false); [reflexivity|right; split; [reflexivity|right]]. change (STR_MAX < zlen p + 0). lia. }
      destruct a as [j|]; [|apply (Keep false); [reflexivity|auto]].
      apply (Done p); [exact H|reflexivity|reflexivity].
  - unfold str_append_fmt, str_set_fmt in *. destruct c as [t|]; cbn [option_map] in *.
    + cbn [sbuf] in *. destruct (before_nul_split t) as (tl & Hs & Hb). rewrite Hs in *. rewrite strlen_ok in * by exact Hb.
      cbn [bind] in *. pose proof (zslice_mid [] (before_nul t) (0 :: tl)) as Hz. cbn [app] in Hz.
      change (zlen (@nil Z)) with 0 in Hz. rewrite Hz in *. rewrite <- Hs in *. destruct x as [x|]; cbn [option_map] in *.
      * destruct Ho as [H1 H2]. destruct (before_nul_prefix t) as (tl' & Ht).
        assert (zlen (before_nul t) <= zlen t) by (rewrite Ht at 2; rewrite zlen_app; pose proof (zlen_nonneg tl'); lia).
        rewrite create_fmt_ok in * by (rewrite zlen_app; lia). cbn [bind] in *.
        destruct a as [j|]; [|apply (Keep false); [reflexivity|auto]].
        apply (Done (before_nul t ++ x)); [rewrite zlen_app; unfold STR_MAX; lia|exists x; auto|reflexivity].
      * apply (Keep false); [reflexivity|right; split; [reflexivity|right; reflexivity]].
    + destruct x as [x|].
      * destruct Ho as [H1 H2]. rewrite create_fmt_ok in * by lia. cbn [bind] in *.
        destruct a as [j|]; [|apply (Keep false); [reflexivity|auto]].
        apply (Done x); [unfold STR_MAX; lia|exists x; auto|reflexivity].
      * apply (Keep false); [reflexivity|right; split; [reflexivity|right; reflexivity]].
  - destruct Ho as [Hi Hj]. destruct c as [t|]; cbn [option_map] in *.
    + destruct (substring_ok t i j a) as [[E H]|(x & y & z & -> & Hx & Hy & E)]; [lia|lia|exact Hc| |].
      * apply (Keep false); [exact E|right; split; [reflexivity|exact H]].
      * apply (Done y); [rewrite !zlen_app in Hc; pose proof (zlen_nonneg x); pose proof (zlen_nonneg z); lia| |exact E].
        exists x, z, y. auto.
    + apply (Keep false); [reflexivity|right; split; [reflexivity|right; exact I]].
  - destruct c as [t|]; cbn [option_map] in *.
    + destruct (trim_ok t set a Ho Hc) as (mid & Ht & [[E H]|E]).
      * apply (Keep false); [exact E|auto].
      * apply (Done mid); [|exists mid; auto|exact E]. destruct Ht as (l & r & -> & _). rewrite !zlen_app in Hc.
        pose proof (zlen_nonneg l); pose proof (zlen_nonneg r); lia.
    + apply (Keep true); [reflexivity|left; split; reflexivity].
  - destruct Ho as (H1 & H2 & H3). destruct c as [t|]; cbn [option_map] in *.
    + destruct (replace_ok t pat w a fuel H1 H2 H3 Hc Hf) as [[E H]|(t' & Ht & Hl & E)].
      * apply (Keep false); [exact E|right; split; [reflexivity|exact H]].
      * apply (Done t'); [exact Hl|exists t'; auto|exact E].
    + apply (Keep true); [reflexivity|left; split; reflexivity].
  - exists None, None, true. split; [reflexivity|]. split; [split; [reflexivity|exact I]|left; split; reflexivity].
Qed.
Print Assumptions str_step_partial.
(** "ab, c" becomes "ab; c; c". *)
Example str_step_example :
  holds (Some (mk_sstr 5 [97; 98; 44; 32; 99; 0])) (Some [97; 98; 44; 32; 99]) /\
  sop_ok (Some [97; 98; 44; 32; 99]) (Append [44; 32; 99]) /\
  exists v1, sstep 9 (Some (mk_sstr 5 [97; 98; 44; 32; 99; 0])) (Append [44; 32; 99]) (Some [7]) = Ok (v1, true) /\
    sstep 9 v1 (Replace [44] [59]) (Some []) = Ok (Some (mk_sstr 8 [97; 98; 59; 32; 99; 59; 32; 99; 0]), true) /\
    sstep 9 v1 (Replace [44] [59; 59]) None = Ok (v1, false).
Proof.
  split; [split; [reflexivity|vm_compute; discriminate]|].
  split; [split; [intros H; repeat destruct H as [H|H]; try discriminate; destruct H|vm_compute; reflexivity]|].
  eexists. repeat split; vm_compute; reflexivity.
Qed.

(** Creation from a C string, from a counted buffer (up to the maximum), from a
    format, and duplication. *)
Theorem str_create_partial :
  forall t rest a, zlen t <= STR_MAX ->
    let result := Ok (match a with None => None | Some _ => Some (mk_sstr (zlen t) (t ++ [0])) end) in
    str_create_len (Some (t ++ rest)) (zlen t) a = result /\
    str_dup (Some (mk_sstr (zlen t) (t ++ [0]))) a = result /\
    (nonul t -> str_create (Some t) a = result) /\
    (nonul t -> zlen t < 2^31 - 1 -> str_create_fmt (Some t) a = result) /\
    (forall p, nonul p -> STR_MAX < zlen p -> str_create (Some p) a = Ok None) /\
    str_create None a = Ok None /\ str_create_len None (zlen t) a = Ok None /\ str_dup None a = Ok None.
Proof.
  intros t rest a Ht result. unfold STR_MAX in Ht. split; [apply create_len_ok; lia|]. split; [apply create_len_ok; cbn; lia|].
  split; [intro H; rewrite create_ok by exact H; now replace (STR_MAX <? zlen t) with false by (unfold STR_MAX; lia)|].
  split; [intros _ H; apply create_fmt_ok; lia|].
  split; [intros p H1 H2; rewrite create_ok by exact H1; now replace (STR_MAX <? zlen p) with true by lia|].
  auto.
Qed.
Print Assumptions str_create_partial.
Example str_create_example :
  str_create_len (Some [104; 0; 105; 33; 33]) 3 (Some []) = Ok (Some (mk_sstr 3 [104; 0; 105; 0])) /\
  str_create (Some [104; 105]) (Some [9; 9; 9; 9]) = Ok (Some (mk_sstr 2 [104; 105; 0])) /\
  zlen [104; 0; 105] <= STR_MAX /\ nonul [104; 105].
Proof.
  repeat split; try (vm_compute; reflexivity); [vm_compute; discriminate|].
  intros H; repeat destruct H as [H|H]; try discriminate; destruct H.
Qed.

(** Comparison and length read the contents. *)
Theorem str_cmp_len :
  forall t1 t2, exists b, str_cmp (mk_sstr (zlen t1) (t1 ++ [0])) (mk_sstr (zlen t2) (t2 ++ [0])) = Ok b /\
    (b = true <-> t1 = t2) /\ str_len (Some (mk_sstr (zlen t1) (t1 ++ [0]))) = zlen t1 /\ str_len None = -1.
Proof.
  intros t1 t2. unfold str_cmp. cbn [slen sbuf]. destruct (Z.eqb_spec (zlen t1) (zlen t2)) as [E|E].
  - pose proof (bytes_mid [] t1 [0]) as B1. pose proof (bytes_mid [] t2 [0]) as B2. cbn [app] in B1, B2.
    change (zlen (@nil Z)) with 0 in B1, B2. rewrite B1. cbn [bind]. rewrite E, B2. cbn [bind].
    eexists. split; [reflexivity|]. destruct (list_eq_dec Z.eq_dec t1 t2) as [->|Hn]; [|split; [split; [discriminate|contradiction]|split; [reflexivity|reflexivity]]].
    split; [tauto|split; reflexivity].
  - exists false. split; [reflexivity|]. split; [split; [discriminate|intros ->; contradiction]|split; reflexivity].
Qed.
Print Assumptions str_cmp_len.
Example str_cmp_example :
  str_cmp (mk_sstr 2 [1; 2; 0]) (mk_sstr 2 [1; 2; 0]) = Ok true /\ str_cmp (mk_sstr 2 [1; 2; 0]) (mk_sstr 2 [1; 3; 0]) = Ok false.
Proof. split; reflexivity. Qed.

(** Missing for C37: sc_str_create_len accepts lengths above the maximum.  Then
    [SC_STR_MAX - length] wraps, appending is not refused, the length overflows
    and the successful append empties the string. *)
Theorem str_append_refuted :
  forall t, zlen t = 2^32 - 1 ->
    str_create_len (Some t) (zlen t) (Some []) = Ok (Some (mk_sstr (zlen t) (t ++ [0]))) /\
    exists b, str_append (Some (mk_sstr (zlen t) (t ++ [0]))) [97] (Some []) = Ok (Some (mk_sstr 0 b), true).
Proof.
  intros t Ht. split.
  - pose proof (create_len_ok t [] (Some [])) as H. rewrite app_nil_r in H. apply H. lia.
  - unfold str_append. cbn [slen sbuf]. change (strlen ([97] ++ [0])) with (Ok 1). cbn [bind].
    change (bytes_at ([97] ++ [0]) 0 1) with (Ok [97]). rewrite Ht.
    change (u64 (STR_MAX - (2 ^ 32 - 1)) <? 1) with false. cbn iota.
    change (str_bytes (u64 (2 ^ 32 - 1 + 1)) - 4) with (2^32 + 1). unfold realloc, option_map.
    set (b := firstn _ _).
    assert (Hb : zlen b = 2^32 + 1).
    { unfold b. rewrite zlen_firstn, !zlen_app, zlen_repeat. change (zlen [0]) with 1. change (zlen (@nil Z)) with 0. lia. }
    clearbody b. cbn [bind]. rewrite memcpy_ok by (change (zlen [97]) with 1; lia). cbn [bind].
    change (u32 (2 ^ 32 - 1 + u32 1)) with 0. set (b' := firstn _ _ ++ _).
    assert (Hb' : zlen b' = 2^32 + 1).
    { unfold b'. rewrite !zlen_app, zlen_firstn, zlen_skipn. change (zlen [97]) with 1. lia. }
    clearbody b'. rewrite zput_ok by lia. cbn [bind]. eexists. reflexivity.
Qed.
Print Assumptions str_append_refuted.
Example str_append_refuted_example : exists t : list Z, zlen t = 2^32 - 1.
Proof. exists (repeat 1 (Z.to_nat (2^32 - 1))). rewrite zlen_repeat. apply Z2Nat.id. lia. Qed.

(** ** C38 *)
(** Substring: exactly the bytes [i, j), refused exactly for invalid ranges. *)
Theorem str_substring_exact :
  forall t i j junk, zlen t <= STR_MAX -> 0 <= i < 2^32 -> 0 <= j < 2^32 ->
    let v := Some (mk_sstr (zlen t) (t ++ [0])) in
    if (i <=? j) && (j <=? zlen t)
    then exists a m b, t = a ++ m ++ b /\ zlen a = i /\ zlen a + zlen m = j /\
           str_substring v i j (Some junk) = Ok (Some (mk_sstr (zlen m) (m ++ [0])), true)
    else str_substring v i j (Some junk) = Ok (v, false).
Proof.
  intros t i j junk Ht Hi Hj v.
  destruct (substring_ok t i j (Some junk)) as [[E H]|(x & y & z & -> & Hx & Hy & E)]; [lia|lia|exact Ht| |].
  - destruct H as [H|H]; [discriminate|]. now replace ((i <=? j) && (j <=? zlen t)) with false by lia.
  - rewrite !zlen_app. pose proof (zlen_nonneg y). pose proof (zlen_nonneg z).
    replace ((i <=? j) && (j <=? zlen x + (zlen y + zlen z))) with true by lia.
    exists x, y, z. split; [reflexivity|]. split; [exact Hx|]. split; [exact Hy|exact E].
Qed.
Print Assumptions str_substring_exact.
Example str_substring_example :
  str_substring (Some (mk_sstr 5 [1; 2; 3; 4; 5; 0])) 1 3 (Some []) = Ok (Some (mk_sstr 2 [2; 3; 0]), true) /\
  str_substring (Some (mk_sstr 5 [1; 2; 3; 4; 5; 0])) 3 6 (Some []) = Ok (Some (mk_sstr 5 [1; 2; 3; 4; 5; 0]), false).
Proof. split; reflexivity. Qed.
(** Trim of a string without NULs: exactly the listed characters at both ends. *)
Theorem str_trim_exact :
  forall t set junk, zlen t <= STR_MAX -> nonul t -> nonul set ->
    exists mid, trimmed (fun x => In x set) (fun x => In x set) t mid /\
      str_trim (Some (mk_sstr (zlen t) (t ++ [0]))) set (Some junk) = Ok (Some (mk_sstr (zlen mid) (mid ++ [0])), true).
Proof.
  intros t set junk Ht Hn Hs. destruct (trim_ok t set (Some junk) Hs Ht) as (mid & (l & r & -> & H1 & H2 & H3 & H4) & [[_ H]|E]); [discriminate|].
  exists mid. split; [|exact E]. exists l, r. split; [reflexivity|]. split; [exact H1|].
  apply nonul_app in Hn as [_ Hn]. apply nonul_app in Hn as [Hm Hr]. split.
  - rewrite Forall_forall in *. intros x Hx. destruct (H2 x Hx) as [->|H]; [contradiction|exact H].
  - split; [exact H3|]. intros x y E' Hx. apply (H4 x y E'). auto.
Qed.
Print Assumptions str_trim_exact.
Example str_trim_example :
  nonul [32; 9; 97; 32; 98; 32] /\ nonul [32; 9] /\
  str_trim (Some (mk_sstr 6 [32; 9; 97; 32; 98; 32; 0])) [32; 9] (Some []) = Ok (Some (mk_sstr 3 [97; 32; 98; 0]), true) /\
  str_trim (Some (mk_sstr 2 [32; 9; 0])) [32; 9] (Some []) = Ok (Some (mk_sstr 0 [0]), true).
Proof. repeat split; try reflexivity; intros H; repeat destruct H as [H|H]; try discriminate; destruct H. Qed.

(** ** C39 *)
(** Replacement, with memory available: the text with every occurrence replaced,
    or a refusal when the result (or an argument) is too long. *)
Theorem str_replace_exact :
  forall t pat w junk fuel, nonul t -> nonul pat -> nonul w -> pat <> [] -> zlen t <= STR_MAX -> (length t < fuel)%nat ->
    zlen pat < 2^32 - 1 -> zlen w < 2^32 - 1 ->
    exists t', replaced pat w t t' /\ (forall t'', replaced pat w t t'' -> t'' = t') /\
      str_replace fuel (Some (mk_sstr (zlen t) (t ++ [0]))) pat w (Some junk) =
        Ok (if zlen t' <=? STR_MAX then (Some (mk_sstr (zlen t') (t' ++ [0])), true) else (Some (mk_sstr (zlen t) (t ++ [0])), false)).
Proof.
  intros t pat w junk fuel Hn Hp Hw Hne Ht Hf Hlp Hlw.
  assert (Full : forall t', c_replaced pat w t t' -> replaced pat w t t').
  { intros t' (c & c' & tl & H1 & -> & H2 & R). rewrite (before_nul_id t Hn) in H2. subst c.
    assert (tl = []) as -> by (apply (app_inv_head t); now rewrite app_nil_r, <- H1). now rewrite app_nil_r. }
  assert (U : forall t', replaced pat w t t' -> forall t'', replaced pat w t t'' -> t'' = t')
    by (intros t' R t'' R'; exact (replaced_unique _ _ _ _ R' _ R)).
  destruct (replace_ok t pat w (Some junk) fuel Hp Hw Hne Ht Hf) as [[E H]|(t' & R & Hl & E)].
  - destruct H as [H|[H|[H|(t' & R & H)]]]; [discriminate|lia|lia|]. apply Full in R. exists t'.
    split; [exact R|]. split; [exact (U _ R)|]. now replace (zlen t' <=? STR_MAX) with false by lia.
  - apply Full in R. exists t'. split; [exact R|]. split; [exact (U _ R)|]. now replace (zlen t' <=? STR_MAX) with true by lia.
Qed.
Print Assumptions str_replace_exact.
(** "aaaba" with "aa" replaced by "a", and "x" for "a". *)
Example str_replace_example :
  nonul [97; 97; 97; 98; 97] /\
  str_replace 9 (Some (mk_sstr 5 [97; 97; 97; 98; 97; 0])) [97; 97] [97] (Some []) = Ok (Some (mk_sstr 4 [97; 97; 98; 97; 0]), true) /\
  str_replace 9 (Some (mk_sstr 5 [97; 97; 97; 98; 97; 0])) [97] [120; 97] (Some [])
    = Ok (Some (mk_sstr 9 [120; 97; 120; 97; 120; 97; 98; 120; 97; 0]), true).
Proof. split; [intros H; repeat destruct H as [H|H]; try discriminate; destruct H|]. split; reflexivity. Qed.

(** ** C40 *)
(** Replacement ends for all arguments, except for the empty pattern with the
    empty replacement. *)
Theorem str_replace_terminates_partial :
  forall t pat w a, nonul pat -> nonul w -> zlen t <= STR_MAX -> pat <> [] \/ w <> [] ->
    exists n, forall fuel, (n <= fuel)%nat ->
      exists v ok, str_replace fuel (Some (mk_sstr (zlen t) (t ++ [0]))) pat w a = Ok (v, ok) /\
        (pat = [] -> ok = false /\ v = Some (mk_sstr (zlen t) (t ++ [0]))).
Proof.
  intros t pat w a Hp Hw Ht Hne. destruct pat as [|p pat].
  - destruct Hne as [?|Hne]; [contradiction|]. exists (Z.to_nat (STR_MAX + 1)). intros fuel Hf.
    exists (Some (mk_sstr (zlen t) (t ++ [0]))), false. split; [|auto].
    unfold str_replace. change (zlen (@nil Z)) with 0. destruct ((2^32 - 1 <=? 0) || (2^32 - 1 <=? zlen w)) eqn:E; [reflexivity|].
    assert (0 < zlen w) by (destruct w; [contradiction|rewrite zlen_cons; pose proof (zlen_nonneg w); lia]).
    replace (zlen w - 0 =? 0) with false by lia. cbn [slen sbuf]. pose proof (zlen_nonneg t).
    rewrite rep_count_empty; [reflexivity|lia|rewrite zlen_app; change (zlen [0]) with 1; lia|lia|lia].
  - exists (S (length t)). intros fuel Hf.
    destruct (replace_ok t (p :: pat) w a fuel Hp Hw) as [[E _]|(t' & _ & _ & E)]; [discriminate|exact Ht|lia| |];
      do 2 eexists; (split; [exact E|discriminate]).
Qed.
Print Assumptions str_replace_terminates_partial.
Example str_replace_terminates_example : nonul [97] /\ zlen [1; 2; 3] <= STR_MAX /\ ([97] <> [] \/ @nil Z <> []).
Proof. split; [intros [H|[]]; discriminate|]. split; [vm_compute; discriminate|left; discriminate]. Qed.
(** The empty pattern and replacement: on no string does the call return. *)
Theorem str_replace_terminates_refuted :
  forall t a fuel, str_replace fuel (Some (mk_sstr (zlen t) (t ++ [0]))) [] [] a = Fuel.
Proof.
  intros t a fuel. unfold str_replace. cbn [slen sbuf]. change ((2^32 - 1 <=? zlen (@nil Z)) || (2^32 - 1 <=? zlen (@nil Z))) with false.
  cbn iota. change (zlen (@nil Z) - zlen (@nil Z) =? 0) with true. cbn iota.
  rewrite rep_same_empty; [reflexivity|]. rewrite zlen_app. change (zlen [0]) with 1. pose proof (zlen_nonneg t). lia.
Qed.
Print Assumptions str_replace_terminates_refuted.

(** ** C41 *)
(** For a string [t] without NULs and any number [n] of calls: the first [n]
    pieces of [t]; the loop ends by itself exactly when there are no more; then
    the string is as before, and sc_str_token_end restores it at every stopping
    point. *)
Theorem str_tokens_split :
  forall t delim, nonul t -> nonul delim ->
    let s := mk_sstr (zlen t) (t ++ [0]) in
    exists ts, splits delim t ts /\ (forall ts', splits delim t ts' -> ts' = ts) /\
      forall n, exists s' save', tokens n s None delim = Ok (s', save', firstn n ts, (length ts <? n)%nat) /\
        token_end s' save' = Ok s /\ ((length ts < n)%nat -> s' = s).
Proof.
  intros t delim Ht Hd s. destruct (tokens_all delim t Hd) as (ts & Hs & H). rewrite before_nul_id in Hs by exact Ht.
  exists ts. split; [exact Hs|]. split; [intros ts' Hs'; exact (splits_unique _ _ _ Hs' _ Hs)|exact H].
Qed.
Print Assumptions str_tokens_split.
(** ";a-b;" with ";-": four tokens, two of them empty. *)
Example str_tokens_example :
  nonul [59; 97; 45; 98; 59] /\ nonul [59; 45] /\
  tokens 9 (mk_sstr 5 [59; 97; 45; 98; 59; 0]) None [59; 45]
    = Ok (mk_sstr 5 [59; 97; 45; 98; 59; 0], Some 5, [[]; [97]; [98]; []], true) /\
  tokens 2 (mk_sstr 5 [59; 97; 45; 98; 59; 0]) None [59; 45] = Ok (mk_sstr 5 [59; 97; 0; 98; 59; 45], Some 2, [[]; [97]], false).
Proof. repeat split; try reflexivity; intros H; repeat destruct H as [H|H]; try discriminate; destruct H. Qed.
(** With embedded NULs, the tokens are those of the text before the first NUL,
    and the string is still restored. *)
Theorem str_tokens_nul :
  forall t delim, nonul delim ->
    let s := mk_sstr (zlen t) (t ++ [0]) in
    exists ts, splits delim (before_nul t) ts /\
      forall n, exists s' save', tokens n s None delim = Ok (s', save', firstn n ts, (length ts <? n)%nat) /\
        token_end s' save' = Ok s /\ ((length ts < n)%nat -> s' = s).
Proof. intros t delim Hd. exact (tokens_all delim t Hd). Qed.
Print Assumptions str_tokens_nul.
Example str_tokens_nul_example :
  tokens 9 (mk_sstr 5 [97; 59; 98; 0; 99; 0]) None [59] = Ok (mk_sstr 5 [97; 59; 98; 0; 99; 0], Some 3, [[97]; [98]], true).
Proof. reflexivity. Qed.
