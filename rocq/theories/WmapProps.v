(** C117, C118, C119: memory-map/sc_mmap.c on Windows. *)
From Verif Require Import Base CStr StrSpec StrProofs MmapModel MmapProps WmapModel.

(** ** Specification *)

(** What the process holds: descriptors, mapping objects with their size, views with their length. *)
Record held := mk_held { hfds : list Z; hobjs : list (Z * Z); hviews : list (Z * Z) }.
(** The list without the first occurrence of [x], None if there is none. *)
Fixpoint take_out {A} (is : A -> bool) (l : list A) : option (list A) :=
  match l with
  | [] => None
  | y :: l => if is y then Some l else match take_out is l with Some l => Some (y :: l) | None => None end
  end.
(** One call as the system sees it; None if it names something the process does not hold,
    or memory outside a view. *)
Definition sys (h : held) (a : wact) : option held :=
  match a with
  | WOpen fd => Some (mk_held (fd :: hfds h) (hobjs h) (hviews h))
  | WClose fd => match take_out (Z.eqb fd) (hfds h) with Some l => Some (mk_held l (hobjs h) (hviews h)) | None => None end
  | Create fm _ _ size => Some (mk_held (hfds h) ((fm, size) :: hobjs h) (hviews h))
  | Drop fm => match take_out (fun x => fm =? fst x) (hobjs h) with Some l => Some (mk_held (hfds h) l (hviews h)) | None => None end
  | View fm p off len =>
      if existsb (fun x => fm =? fst x) (hobjs h) then Some (mk_held (hfds h) (hobjs h) ((p, len) :: hviews h)) else None
  | Unview p => match take_out (fun x => p =? fst x) (hviews h) with Some l => Some (mk_held (hfds h) (hobjs h) l) | None => None end
  | Flush p n | VLock p n | VUnlock p n =>
      if existsb (fun x => (fst x <=? p) && (p + n <=? fst x + snd x)) (hviews h) then Some h else None
  end.
Fixpoint syss (h : held) (l : list wact) : option held :=
  match l with [] => Some h | a :: l => match sys h a with Some h => syss h l | None => None end end.

(** The length meant: that asked for, or the rest of the file. *)
Definition length_meant (size offset len : Z) : Z := if len =? 0 then u64 (size - offset) else len.
(** An init whose calls are all granted: the length, else None. *)
Definition granted (anon : bool) (offset len : Z) (an : answers) : option Z :=
  match a_open an, a_stat an, (if anon then Good 0 else a_handle an), a_create an, a_view an with
  | Good _, Good size, Good _, Good _, Good _ => Some (length_meant size offset len)
  | _, _, _, _, _ => None
  end.
Definition good (x : ans) : bool := match x with Good _ => true | Bad _ => false end.
(** Histories meant: init only an object that is not mapped, and with a descriptor other than -1; unmapping
    succeeds; the other calls only on a mapped object and inside it.  [cur]: the
    length of the mapping, if there is one. *)
Fixpoint mproper (cur : option Z) (l : list wcall) : Prop :=
  match l with
  | [] => True
  | MInit _ anon offset len an :: l => cur = None /\ a_open an <> Good (-1) /\ mproper (granted anon offset len an) l
  | MTerm x :: l => (cur <> None -> good x = true) /\ mproper None l
  | MSync o n _ :: l | MLock o n _ :: l | MUnlock o n _ :: l =>
      0 <= o /\ match cur with Some len => o + n <= len | None => False end /\ mproper cur l
  end.
(** The results meant, and the length mapped at the end. *)
Fixpoint mmeant (cur : option Z) (l : list wcall) : list Z * option Z :=
  match l with
  | [] => ([], cur)
  | c :: l =>
      let '(rc, cur) := match c with
        | MInit _ anon offset len an => match granted anon offset len an with Some n => (0, Some n) | None => (-1, None) end
        | MTerm _ => (0, None)
        | MSync _ _ x | MLock _ _ x | MUnlock _ _ x => ((if good x then 0 else -1), cur)
        end in
      let '(rcs, cur) := mmeant cur l in (rc :: rcs, cur)
  end.
(** What an object holds. *)
Definition holds (m : mapping) (cur : option Z) (h : held) : Prop :=
  match cur with
  | Some len => mfd m <> -1 /\ mlen m = len /\ h = mk_held [mfd m] [] [(mptr m, len)]
  | None => mfd m = -1 /\ h = mk_held [] [] []
  end.

(** ** Proof *)
Lemma take_one {A} (is : A -> bool) x : is x = true -> take_out is [x] = Some [].
Proof. intro H. cbn. now rewrite H. Qed.
Lemma errstr_len msgs e m : zlen (merr m) = 128 -> exists m', wmap_errstr msgs e m = Ok m' /\ zlen (merr m') = 128 /\
  mfd m' = mfd m /\ mptr m' = mptr m /\ mlen m' = mlen m.
Proof.
  intro H. unfold wmap_errstr. destruct (msgs e) as [msg|]; [|exists m; auto]. unfold map_err. set (x := firstn 127 _).
  assert (Hx : zlen x = 127) by (unfold x, zlen; rewrite firstn_length, !app_length, repeat_length; lia).
  rewrite memcpy_ok by lia. cbn [bind]. eexists. split; [reflexivity|]. cbn [merr mfd mptr mlen]. split; [|auto].
  rewrite !zlen_app. unfold zlen in *. rewrite firstn_length, skipn_length. lia.
Qed.

Lemma init_step msgs pw anon offset len an : a_open an <> Good (-1) ->
  exists a m, wmap_init msgs pw anon offset len an = Ok (a, m, match granted anon offset len an with Some _ => 0 | None => -1 end) /\
    zlen (merr m) = 128 /\ exists h, syss (mk_held [] [] []) a = Some h /\ holds m (granted anon offset len an) h.
Proof.
  intro Ho. unfold wmap_init, granted, length_meant.
  assert (Er : forall a e h, syss (mk_held [] [] []) a = Some h -> h = mk_held [] [] [] ->
    exists a' m, (let* m := wmap_errstr msgs e (mk_mapping (-1) 0 0 0 (repeat 0 128)) in Ok (a, m, -1)) = Ok (a', m, -1) /\
      zlen (merr m) = 128 /\ exists h, syss (mk_held [] [] []) a' = Some h /\ holds m None h).
  { intros a e h Ha ->. destruct (errstr_len msgs e (mk_mapping (-1) 0 0 0 (repeat 0 128)) eq_refl) as (m & -> & L & F & _). cbn [bind].
    exists a, m. split; [reflexivity|]. split; [exact L|]. eexists. split; [exact Ha|]. split; [exact F|reflexivity]. }
  destruct (a_open an) as [fd|e]; [|eapply Er; reflexivity].
  assert (Cl : forall e, exists a' m, (let* m := wmap_errstr msgs e (mk_mapping (-1) 0 0 0 (repeat 0 128)) in Ok (([WOpen fd] ++ [WClose fd]), m, -1)) = Ok (a', m, -1) /\
      zlen (merr m) = 128 /\ exists h, syss (mk_held [] [] []) a' = Some h /\ holds m None h).
  { intro e. eapply Er; [|reflexivity]. cbn. now rewrite Z.eqb_refl. }
  destruct (a_stat an) as [size|e]; [|apply Cl]. cbv zeta.
  destruct anon.
  - destruct (a_create an) as [fm|e]; [|apply Cl]. destruct (a_view an) as [p|e].
    + do 2 eexists. split; [reflexivity|]. split; [reflexivity|]. eexists. cbn [app syss sys hfds hobjs hviews existsb fst snd take_out orb]. rewrite Z.eqb_refl. cbn [orb hobjs take_out fst hfds hviews].
      rewrite Z.eqb_refl. split; [reflexivity|]. cbn [holds mfd mptr mlen]. split; [congruence|auto].
    + eapply Er; [|reflexivity]. cbn. rewrite Z.eqb_refl. cbn. now rewrite Z.eqb_refl.
  - destruct (a_handle an) as [hd|e]; [|apply Cl]. destruct (a_create an) as [fm|e]; [|apply Cl]. destruct (a_view an) as [p|e].
    + do 2 eexists. split; [reflexivity|]. split; [reflexivity|]. eexists. cbn [app syss sys hfds hobjs hviews existsb fst snd take_out orb]. rewrite Z.eqb_refl. cbn [orb hobjs take_out fst hfds hviews].
      rewrite Z.eqb_refl. split; [reflexivity|]. cbn [holds mfd mptr mlen]. split; [congruence|auto].
    + eapply Er; [|reflexivity]. cbn. rewrite Z.eqb_refl. cbn. now rewrite Z.eqb_refl.
Qed.

Lemma syss_app h a b : syss h (a ++ b) = match syss h a with Some h => syss h b | None => None end.
Proof. revert h. induction a as [|x a IH]; intro h; [reflexivity|]. cbn. destruct (sys h x); [apply IH|reflexivity]. Qed.

Lemma run_ok msgs l : forall m cur h, zlen (merr m) = 128 -> holds m cur h -> mproper cur l ->
  exists a m' h', wmap_run msgs m l = Ok (a, m', fst (mmeant cur l)) /\ syss h a = Some h' /\ holds m' (snd (mmeant cur l)) h'.
Proof.
  induction l as [|c l IH]; intros m cur h Hl Hh Hp; [exists [], m, h; auto|].
  cbn [wmap_run mmeant].
  assert (G : forall a m1 rc cur1 h1, wmap_do msgs m c = Ok (a, m1, rc) -> zlen (merr m1) = 128 -> syss h a = Some h1 -> holds m1 cur1 h1 ->
    mproper cur1 l -> exists a' m' h', (let* (a, m, rc) := wmap_do msgs m c in let* (b, m, rcs) := wmap_run msgs m l in Ok (a ++ b, m, rc :: rcs)) =
      Ok (a', m', fst (let '(rcs, cur) := mmeant cur1 l in (rc :: rcs, cur))) /\ syss h a' = Some h' /\
      holds m' (snd (let '(rcs, cur) := mmeant cur1 l in (rc :: rcs, cur))) h').
  { intros a m1 rc cur1 h1 E L S H P. rewrite E. cbn [bind]. destruct (IH m1 cur1 h1 L H P) as (b & m' & h' & Eb & Sb & Hb).
    rewrite Eb. cbn [bind]. destruct (mmeant cur1 l) as [rcs cur2]. cbn [fst snd] in *. exists (a ++ b), m', h'. split; [reflexivity|].
    rewrite syss_app, S. auto. }
  destruct c as [pw anon offset len an|x|o n x|o n x|o n x].
  - destruct Hp as (-> & Ho & Hp). destruct Hh as [Hf ->].
    destruct (init_step msgs pw anon offset len an Ho) as (a & m1 & E & L & h1 & S & H).
    destruct (granted anon offset len an) as [k|]; apply (G a m1 _ _ h1 E L S H Hp).
  - destruct Hp as [Hg Hp]. destruct cur as [len|].
    + destruct Hh as (Hf & Hm & ->). specialize (Hg ltac:(discriminate)). destruct x as [x|e]; [|discriminate].
      eapply (G _ _ 0 None (mk_held [] [] [])); [cbn [wmap_do]; unfold wmap_term; rewrite (proj2 (Z.eqb_neq _ _) Hf); reflexivity| | |split; reflexivity|exact Hp].
      * exact Hl.
      * cbn. rewrite !Z.eqb_refl. cbn. now rewrite Z.eqb_refl.
    + destruct Hh as [Hf ->]. eapply (G [] m 0 None); [cbn [wmap_do]; unfold wmap_term; rewrite Hf; reflexivity|exact Hl|reflexivity|split; auto|exact Hp].
  - destruct Hp as (H0 & Hr & Hp). destruct cur as [len|]; [|contradiction]. destruct Hh as (Hf & Hm & ->). destruct x as [x|e].
    + eapply (G _ m 0 (Some len)); [reflexivity|exact Hl| |split; [exact Hf|split; [exact Hm|reflexivity]]|exact Hp].
      cbn. destruct (Z.leb_spec (mptr m) (mptr m + o)); [|lia]. destruct (Z.leb_spec (mptr m + o + n) (mptr m + len)); [reflexivity|lia].
    + destruct (errstr_len msgs e m Hl) as (m1 & E & L & F1 & F2 & F3).
      eapply (G [] m1 (-1) (Some len)); [cbn; unfold wmap_msync; rewrite E; reflexivity|exact L|reflexivity| |exact Hp].
      split; [congruence|]. split; [congruence|]. now rewrite F1, F2.
  - destruct Hp as (H0 & Hr & Hp). destruct cur as [len|]; [|contradiction]. destruct Hh as (Hf & Hm & ->). destruct x as [x|e].
    + eapply (G _ m 0 (Some len)); [reflexivity|exact Hl| |split; [exact Hf|split; [exact Hm|reflexivity]]|exact Hp].
      cbn. destruct (Z.leb_spec (mptr m) (mptr m + o)); [|lia]. destruct (Z.leb_spec (mptr m + o + n) (mptr m + len)); [reflexivity|lia].
    + destruct (errstr_len msgs e m Hl) as (m1 & E & L & F1 & F2 & F3).
      eapply (G [] m1 (-1) (Some len)); [cbn; unfold wmap_mlock; rewrite E; reflexivity|exact L|reflexivity| |exact Hp].
      split; [congruence|]. split; [congruence|]. now rewrite F1, F2.
  - destruct Hp as (H0 & Hr & Hp). destruct cur as [len|]; [|contradiction]. destruct Hh as (Hf & Hm & ->). destruct x as [x|e].
    + eapply (G _ m 0 (Some len)); [reflexivity|exact Hl| |split; [exact Hf|split; [exact Hm|reflexivity]]|exact Hp].
      cbn. destruct (Z.leb_spec (mptr m) (mptr m + o)); [|lia]. destruct (Z.leb_spec (mptr m + o + n) (mptr m + len)); [reflexivity|lia].
    + destruct (errstr_len msgs e m Hl) as (m1 & E & L & F1 & F2 & F3).
      eapply (G [] m1 (-1) (Some len)); [cbn; unfold wmap_munlock; rewrite E; reflexivity|exact L|reflexivity| |exact Hp].
      split; [congruence|]. split; [congruence|]. now rewrite F1, F2.
Qed.

(** ** Theorems *)

(** C117: for every history of calls meant, with any answers of the system: the results
    are those meant; nothing is released that is not held and no memory outside
    the view is flushed, locked or unlocked; at the end the process holds exactly the descriptor and
    the view of the object, or nothing if it is not mapped. *)
Theorem wmmap_history msgs m l : zlen (merr m) = 128 -> mfd m = -1 -> mproper None l ->
  exists a m' h, wmap_run msgs m l = Ok (a, m', fst (mmeant None l)) /\
    syss (mk_held [] [] []) a = Some h /\ holds m' (snd (mmeant None l)) h.
Proof. intros Hl Hf Hp. apply run_ok; [exact Hl|split; auto|exact Hp]. Qed.
Print Assumptions wmmap_history.
Definition yes : answers := mk_answers (Good 3) (Good 5000) (Good 40) (Good 50) (Good 65536) None None.
Definition no_view : answers := mk_answers (Good 3) (Good 5000) (Good 40) (Good 50) (Bad 8) None (Some 6).
Example wmmap_history_ex :
  let l := [MTerm (Bad 1); MInit true false 0 0 no_view; MInit true false 4096 0 yes; MLock 10 20 (Good 0); MSync 0 904 (Bad 5); MTerm (Good 0); MTerm (Good 0)] in
  mproper None l /\ mmeant None l = ([0; -1; 0; 0; -1; 0; 0], None) /\ snd (mmeant None (firstn 4 l)) = Some 904.
Proof. cbn. intuition (try discriminate; try lia). Qed.
(** C117 fails if UnmapViewOfFile fails: the object forgets the view. *)
Theorem wmmap_term_refuted : exists m a m' h, zlen (merr m) = 128 /\ mfd m = -1 /\
  wmap_run (fun _ => None) m [MInit true false 0 0 yes; MTerm (Bad 5); MTerm (Good 0)] = Ok (a, m', [0; -1; 0]) /\
  syss (mk_held [] [] []) a = Some h /\ h = mk_held [] [] [(65536, 5000)] /\ mfd m' = -1.
Proof. exists (mk_mapping (-1) 0 0 0 (repeat 0 128)). do 3 eexists. split; [reflexivity|]. split; [reflexivity|]. split; [vm_compute; reflexivity|]. repeat split. Qed.
Print Assumptions wmmap_term_refuted.

Lemma halves_id x : 0 <= x < 2 ^ 64 -> halves x = x.
Proof.
  intro H. unfold halves, u32. change 4294967295 with (Z.ones 32). rewrite !Z.land_ones, Z.shiftr_div_pow2 by lia.
  rewrite !Z.mod_mod by lia. rewrite (Z.mod_small (x / 2 ^ 32)); [|split; [apply Z.div_pos; lia|apply Z.div_lt_upper_bound; lia]].
  pose proof (Z.div_mod x (2 ^ 32)). lia.
Qed.
(** C118: a successful init asks for a mapping object that ends exactly where the view
    ends, in the file unless MAP_ANONYMOUS was given, and for a view at the offset; and if the system refuses views that reach
    over the object's end, then the length is the one asked for, or for 0 what is left of
    the file behind the offset, and no sum has overflowed. *)
Theorem wmmap_range msgs pw anon offset len an a m size : 0 <= offset < 2 ^ 64 -> 0 <= len < 2 ^ 64 -> 0 <= size < 2 ^ 63 ->
  a_stat an = Good size -> wmap_init msgs pw anon offset len an = Ok (a, m, 0) ->
  exists fm h total, In (Create fm h pw total) a /\ In (View fm (mptr m) offset (mlen m)) a /\
    (anon = false -> a_handle an = Good h) /\ (anon = true -> h = -1) /\
    (offset + mlen m <= total ->
       total = offset + mlen m /\ total < 2 ^ 64 /\ mlen m = (if len =? 0 then size - offset else len) /\ (len = 0 -> offset <= size)).
Proof.
  intros Ho Hn Hs Es E. unfold wmap_init in E. cbv zeta in E. rewrite Es in E.
  assert (X : forall e r (a' : list wact), (let* m := wmap_errstr msgs e (mk_mapping (-1) 0 0 0 (repeat 0 128)) in Ok (a', m, -1)) = Ok (r, m, 0) -> False).
  { intros e r a' H. destruct (wmap_errstr _ _ _); cbn in H; discriminate. }
  destruct (a_open an) as [fd|e]; [|exfalso; eapply X, E].
  set (n := if len =? 0 then u64 (size - offset) else len) in E.
  assert (Hn' : 0 <= n < 2 ^ 64) by (unfold n, u64; destruct (len =? 0); [apply Z.mod_pos_bound; lia|lia]).
  rewrite !halves_id in E by (try lia; unfold u64; apply Z.mod_pos_bound; lia).
  destruct (if anon then Good (-1) else a_handle an) as [h|e] eqn:Eh; [|exfalso; eapply X, E].
  destruct (a_create an) as [fm|e]; [|exfalso; eapply X, E]. destruct (a_view an) as [p|e]; [|exfalso; eapply X, E].
  injection E as <- <-. cbn [mptr mlen]. exists fm, h, (u64 (offset + n)).
  split; [cbn; auto|]. split; [cbn; auto|]. split; [intros ->; exact Eh|]. split; [intros ->; now injection Eh as <-|].
  intro Hv. unfold u64 in *.
  assert (Hw : offset + n < 2 ^ 64).
  { destruct (Z_lt_dec (offset + n) (2 ^ 64)) as [|Hge]; [assumption|exfalso].
    assert (Em : (offset + n) mod 2 ^ 64 = offset + n - 2 ^ 64).
    { symmetry. apply (Z.mod_unique_pos _ _ 1); lia. }
    lia. }
  rewrite Z.mod_small by lia. split; [reflexivity|]. split; [exact Hw|]. unfold n in *.
  destruct (Z.eqb_spec len 0) as [El|El]; [|split; [reflexivity|lia]].
  destruct (Z_le_dec offset size) as [Hle|Hgt].
  - rewrite Z.mod_small by lia. auto.
  - exfalso. assert (Em : (size - offset) mod 2 ^ 64 = size - offset + 2 ^ 64) by (symmetry; apply (Z.mod_unique_pos _ _ (-1)); lia). lia.
Qed.
Print Assumptions wmmap_range.
Example wmmap_range_ex : exists m, wmap_init (fun _ => None) true false 4096 0 yes =
  Ok ([WOpen 3; Create 50 40 true 5000; View 50 65536 4096 904; Drop 50], m, 0) /\ mlen m = 904.
Proof. eexists. split; [vm_compute; reflexivity|reflexivity]. Qed.

(** The error of the call that failed; CloseHandle (between MapViewOfFile and
    GetLastError) counts if it fails too. *)
Definition first_error (anon : bool) (an : answers) : option Z :=
  match a_open an, a_stat an, (if anon then Good 0 else a_handle an), a_create an, a_view an with
  | Bad e, _, _, _, _ | Good _, Bad e, _, _, _ | Good _, Good _, Bad e, _, _ | Good _, Good _, Good _, Bad e, _ => Some e
  | Good _, Good _, Good _, Good _, Bad e => match a_drop an with Some e' => Some e' | None => Some e end
  | _, _, _, _, _ => None
  end.
(** C119: after a refused init the object is not mapped and its message is that of the
    call that failed, whatever closing the descriptor does to the last error; it is
    empty if the system has no text for the error. *)
Theorem wmmap_error msgs pw anon offset len an a m rc :
  (forall e t, msgs e = Some t -> exists msg tl, t = msg ++ 0 :: tl /\ nonul msg) ->
  wmap_init msgs pw anon offset len an = Ok (a, m, rc) ->
  match first_error anon an with
  | None => rc = 0
  | Some e => rc = -1 /\ mfd m = -1 /\ mptr m = 0 /\ mlen m = 0 /\
      match msgs e with
      | None => says (merr m) []
      | Some t => exists msg tl, t = msg ++ 0 :: tl /\ says (merr m) msg
      end
  end.
Proof.
  intros Hm E. unfold wmap_init in E. cbv zeta in E. unfold first_error.
  assert (X : forall e a', (let* m := wmap_errstr msgs e (mk_mapping (-1) 0 0 0 (repeat 0 128)) in Ok (a', m, -1)) = Ok (a, m, rc) ->
    rc = -1 /\ mfd m = -1 /\ mptr m = 0 /\ mlen m = 0 /\ match msgs e with None => says (merr m) [] | Some t => exists msg tl, t = msg ++ 0 :: tl /\ says (merr m) msg end).
  { clear E. intros e a' E. unfold wmap_errstr in E. destruct (msgs e) as [t|] eqn:Et.
    - destruct (Hm e t Et) as (msg & tl & -> & Hn). destruct (map_err_ok msg tl (mk_mapping (-1) 0 0 0 (repeat 0 128)) Hn eq_refl) as (m' & Em & F1 & F2 & F3 & _ & S).
      rewrite Em in E. cbn [bind] in E. injection E as <- <- <-. repeat split; auto. exists msg, tl. auto.
    - cbn [bind] in E. injection E as <- <- <-. repeat split; auto. exists (repeat 0 127). reflexivity. }
  destruct (a_open an) as [fd|e]; [|exact (X e _ E)].
  destruct (a_stat an) as [size|e]; [|exact (X e _ E)].
  destruct anon.
  - destruct (a_create an) as [fm|e]; [|exact (X e _ E)]. destruct (a_view an) as [p|e]; [now injection E as <- <- <-|].
    destruct (a_drop an) as [e'|]; exact (X _ _ E).
  - destruct (a_handle an) as [hd|e]; [|exact (X e _ E)].
    destruct (a_create an) as [fm|e]; [|exact (X e _ E)]. destruct (a_view an) as [p|e]; [now injection E as <- <- <-|].
    destruct (a_drop an) as [e'|]; exact (X _ _ E).
Qed.
Print Assumptions wmmap_error.
Example wmmap_error_ex : exists a m, wmap_init (fun e => Some [64 + e; 0]) true false 0 0 no_view = Ok (a, m, -1) /\
  first_error false no_view = Some 8 /\ firstn 2 (merr m) = [72; 0].
Proof. do 2 eexists. split; [vm_compute; reflexivity|]. repeat split. Qed.
