(** C59, C60, C77, C94: memory-map/sc_mmap.c. *)
From Verif Require Import Base Num CStr StrSpec StrProofs MmapModel.

(** ** What the calls leave behind *)
(** Descriptors open after the calls; None if one is closed that is not open. *)
Fixpoint fds (l : list sysact) (now : list Z) : option (list Z) :=
  match l with
  | [] => Some now
  | Open fd :: l => fds l (fd :: now)
  | Close fd :: l => match now with x :: r => if x =? fd then fds l r else None | [] => None end
  | _ :: l => fds l now
  end.
(** Mappings (address, length) after the calls; None if one is removed that is not there. *)
Fixpoint maps (l : list sysact) (now : list (Z * Z)) : option (list (Z * Z)) :=
  match l with
  | [] => Some now
  | Map _ a n _ :: l => maps l ((a, n) :: now)
  | Unmap a n :: l => match now with (x, k) :: r => if (x =? a) && (k =? n) then maps l r else None | [] => None end
  | _ :: l => maps l now
  end.
(** The text in an error array. *)
Definition says (err msg : list Z) : Prop := exists tl, err = firstn 127 msg ++ 0 :: tl.

Lemma map_err_ok msg tl m : nonul msg -> merr m = repeat 0 128 ->
  exists m', map_err (msg ++ 0 :: tl) m = Ok m' /\ mfd m' = mfd m /\ mptr m' = mptr m /\ mlen m' = mlen m /\ page_size m' = page_size m /\ says (merr m') msg.
Proof.
  intros Hn He. unfold map_err. rewrite He. set (x := firstn 127 _).
  assert (Hx : zlen x = 127) by (unfold x, zlen; rewrite firstn_length, !app_length, repeat_length; cbn [length]; lia).
  rewrite memcpy_ok; [|lia|rewrite Hx; cbn; lia]. cbn [bind]. eexists. split; [reflexivity|]. cbn [mfd mptr mlen page_size merr].
  repeat split. rewrite Hx. change (Z.to_nat 0) with 0%nat. change (Z.to_nat (0 + 127)) with 127%nat. change (skipn 127 (repeat 0 128)) with [0].
  cbn [firstn app]. unfold says. destruct (Z.lt_ge_cases (zlen msg) 127) as [H|H]; unfold zlen in H.
  - assert (E : exists r, x = msg ++ 0 :: r).
    { unfold x. rewrite <- app_assoc. rewrite firstn_app. rewrite firstn_all2 by lia. destruct (127 - length msg)%nat eqn:Ek; [lia|]. cbn. eauto. }
    destruct E as (r & ->). exists (r ++ [0]). rewrite firstn_all2 by lia. now rewrite <- app_assoc.
  - exists []. unfold x. rewrite <- app_assoc, firstn_app. replace (127 - length msg)%nat with 0%nat by lia. cbn. now rewrite app_nil_r.
Qed.
Lemma fallocate_ok fd off len rcs a rc : fallocate fd off len rcs = Ok (a, rc) ->
  rc <> EINTR /\ Forall (fun x => exists r, x = Fallocate fd off len r) a /\ In (Fallocate fd off len rc) a /\
  (forall now, fds a now = Some now) /\ forall now, maps a now = Some now.
Proof.
  revert a rc. induction rcs as [|r rcs IH]; intros a rc E; [discriminate E|]. cbn in E.
  destruct (Z.eqb_spec r EINTR) as [->|Hr].
  - destruct (fallocate fd off len rcs) as [[a' rc']| |]; try discriminate E. injection E as <- <-.
    destruct (IH a' rc' eq_refl) as (H1 & H2 & H3 & H4 & H5). repeat split; auto; [constructor; eauto|now right].
  - injection E as <- <-. repeat split; auto. constructor; eauto. now left.
Qed.
Lemma fds_app a : forall b now mid, fds a now = Some mid -> fds (a ++ b) now = fds b mid.
Proof.
  induction a as [|x a IH]; intros b now mid H; cbn in *; [now injection H as ->|].
  destruct x; try (now apply IH). destruct now as [|y r]; [discriminate|]. destruct (y =? fd); [now apply IH|discriminate].
Qed.
Lemma maps_app a : forall b now mid, maps a now = Some mid -> maps (a ++ b) now = maps b mid.
Proof.
  induction a as [|x a IH]; intros b now mid H; cbn in *; [now injection H as ->|].
  destruct x; try (now apply IH). destruct now as [|[y k] r]; [discriminate|]. destruct ((y =? addr) && (k =? len)); [now apply IH|discriminate].
Qed.

(** C59.  On success exactly one descriptor is open, held by the structure, and one
    mapping exists, the one recorded; on failure nothing is open or mapped, the
    structure is empty and the error text is that of the call that failed. *)
Theorem mmap_init_resources strerror pw offset len sysconf open stat rcs mmap close_errno a m rc :
  (forall e, exists msg tl, strerror e = msg ++ 0 :: tl /\ nonul msg) ->
  mmap_init strerror pw offset len sysconf open stat rcs mmap close_errno = Ok (a, m, rc) ->
  (rc = 0 /\ fds a [] = Some [mfd m] /\ maps a [] = Some [(mptr m, mlen m)] /\ open = Good (mfd m) /\ mmap = Good (mptr m)) \/
  (rc = -1 /\ fds a [] = Some [] /\ maps a [] = Some [] /\ mfd m = -1 /\ mptr m = 0 /\ mlen m = 0 /\
   exists e msg tl, strerror e = msg ++ 0 :: tl /\ nonul msg /\ says (merr m) msg /\
     (sysconf = Bad e \/ open = Bad e \/ stat = Bad e \/ In e rcs \/ mmap = Bad e)).
Proof.
  intros Hm E. unfold mmap_init in E. cbn [mfd mptr mlen merr page_size] in E. cbv zeta in E.
  assert (Er : forall acts e ps, (let* m := map_err (strerror e) (mk_mapping (-1) ps 0 0 (repeat 0 128)) in Ok (acts, m, -1)) = Ok (a, m, rc) ->
    a = acts /\ rc = -1 /\ mfd m = -1 /\ mptr m = 0 /\ mlen m = 0 /\ exists msg tl, strerror e = msg ++ 0 :: tl /\ nonul msg /\ says (merr m) msg).
  { intros acts e ps H. destruct (Hm e) as (msg & tl & Es & Hn). rewrite Es in H.
    destruct (map_err_ok msg tl (mk_mapping (-1) ps 0 0 (repeat 0 128)) Hn eq_refl) as (m' & E1 & F1 & F2 & F3 & F4 & F5).
    rewrite E1 in H. cbn [bind] in H. injection H as <- <- <-. repeat split; auto. eauto. }
  destruct sysconf as [ps|e].
  2: { right. destruct (Er _ _ _ E) as (-> & -> & H1 & H2 & H3 & msg & tl & H4 & H5 & H6). repeat split; auto. exists e, msg, tl. auto 10. }
  destruct open as [fd|e].
  2: { right. destruct (Er _ _ _ E) as (-> & -> & H1 & H2 & H3 & msg & tl & H4 & H5 & H6). repeat split; auto. exists e, msg, tl. auto 10. }
  destruct stat as [size|e].
  2: { right. destruct (Er _ _ _ E) as (-> & -> & H1 & H2 & H3 & msg & tl & H4 & H5 & H6). cbn. rewrite Z.eqb_refl. repeat split; auto. exists e, msg, tl. auto 10. }
  set (n := if len =? 0 then u64 (size - offset) else len) in *.
  destruct (if pw then fallocate fd offset n rcs else Ok ([], 0)) as [[fa frc]| |] eqn:Ef; try discriminate E. cbn [bind] in E.
  assert (Hf : (forall now, fds fa now = Some now) /\ (forall now, maps fa now = Some now) /\ (frc <> 0 -> In frc rcs)).
  { destruct pw.
    - destruct (fallocate_ok _ _ _ _ _ _ Ef) as (_ & _ & _ & H4 & H5). split; [exact H4|]. split; [exact H5|]. intros _.
      clear - Ef. revert fa Ef. induction rcs as [|r rcs IH]; intros fa Ef; [discriminate|]. cbn in Ef. destruct (r =? EINTR).
      + destruct (fallocate fd offset n rcs) as [[a' rc']| |]; try discriminate. injection Ef as <- <-. right. eapply IH. reflexivity.
      + injection Ef as <- <-. now left.
    - injection Ef as <- <-. repeat split. lia. }
  destruct Hf as (F1 & F2 & F3).
  assert (Cl : fds ((Open fd :: fa) ++ [Close fd]) [] = Some [] /\ maps ((Open fd :: fa) ++ [Close fd]) [] = Some []).
  { cbn [app fds maps]. rewrite (fds_app fa _ [fd] [fd]), (maps_app fa _ [] []) by auto. cbn. now rewrite Z.eqb_refl. }
  destruct Cl as [C1 C2].
  destruct (Z.eqb_spec frc 0) as [->|Hne]; cbn [negb] in E.
  - destruct mmap as [p|e].
    + left. injection E as <- <- <-. cbn [mfd mptr mlen fds maps]. rewrite (fds_app fa _ [fd] [fd]), (maps_app fa _ [] []) by auto. cbn. auto.
    + right. destruct (Er _ _ _ E) as (-> & -> & H1 & H2 & H3 & msg & tl & H4 & H5 & H6). repeat split; auto. exists e, msg, tl. auto 10.
  - right. destruct (Er _ _ _ E) as (-> & -> & H1 & H2 & H3 & msg & tl & H4 & H5 & H6). repeat split; auto. exists frc, msg, tl. auto 10.
Qed.
Print Assumptions mmap_init_resources.
Example mmap_init_ex : exists m, mmap_init (fun _ => [69; 0]) true 4096 100 (Good 4096) (Good 5) (Good 0) [4; 28] (Good 65536) 9
  = Ok ([Open 5; Fallocate 5 4096 100 4; Fallocate 5 4096 100 28; Close 5], m, -1) /\ firstn 2 (merr m) = [69; 0].
Proof. eexists. split; [vm_compute; reflexivity|reflexivity]. Qed.

(** C59.  After a successful init, term closes the descriptor and removes the mapping,
    once; calling it again does nothing.  If munmap fails it returns -1. *)
Theorem mmap_term_resources strerror m munmap a m' rc :
  (forall e, exists msg tl, strerror e = msg ++ 0 :: tl /\ nonul msg) -> mfd m <> -1 ->
  mmap_term strerror m munmap = Ok (a, m', rc) ->
  fds a [mfd m] = Some [] /\ (rc = 0 \/ rc = -1) /\ (rc = 0 <-> exists x, munmap = Good x) /\
  maps a [(mptr m, mlen m)] = Some (if rc =? 0 then [] else [(mptr m, mlen m)]) /\
  forall ans, mmap_term strerror m' ans = Ok ([], m', 0).
Proof.
  intros Hm Hf E. unfold mmap_term in E. rewrite (proj2 (Z.eqb_neq _ _) Hf) in E. destruct munmap as [x|e]; cbn [bind] in E.
  - injection E as <- <- <-. cbn. rewrite !Z.eqb_refl. cbn. repeat split; auto. eauto.
  - destruct (map_err (strerror e) m) as [m1| |] eqn:E1; try discriminate E. cbn [bind] in E. injection E as <- <- <-.
    cbn. rewrite Z.eqb_refl. repeat split; auto; try discriminate. intros (x & H). discriminate H.
Qed.
Print Assumptions mmap_term_resources.
Example mmap_term_ex : exists m', mmap_term (fun _ => [69; 0]) (mk_mapping 5 4096 65536 100 (repeat 0 128)) (Good 0) =
  Ok ([Close 5; Unmap 65536 100], m', 0) /\ mfd m' = -1.
Proof. eexists. split; reflexivity. Qed.

(** C77.  The mapping has the length asked for, or that of the file behind the offset
    if 0 was asked for, and the offset asked for; with PROT_WRITE the file
    was made to reach over all of it before. *)
Theorem mmap_init_range strerror pw offset len ps fd size rcs mmap close_errno a m :
  0 <= len < 2 ^ 64 -> 0 <= offset <= size -> size < 2 ^ 63 ->
  mmap_init strerror pw offset len (Good ps) (Good fd) (Good size) rcs mmap close_errno = Ok (a, m, 0) ->
  mlen m = (if len =? 0 then size - offset else len) /\ page_size m = ps /\
  exists l, a = l ++ [Map fd (mptr m) (mlen m) offset] /\ (pw = true -> In (Fallocate fd offset (mlen m) 0) l).
Proof.
  intros Hl Ho Hs E. unfold mmap_init in E. cbn [mfd mptr mlen merr page_size] in E. cbv zeta in E.
  rewrite (u64_small (size - offset)) in E by lia. set (n := if len =? 0 then size - offset else len) in *.
  assert (Bad : forall acts e ps, (let* m := map_err (strerror e) (mk_mapping (-1) ps 0 0 (repeat 0 128)) in Ok (acts, m, -1)) = Ok (a, m, 0) -> False).
  { intros acts e ps0 H. destruct (map_err _ _); discriminate H. }
  destruct (if pw then fallocate fd offset n rcs else Ok ([], 0)) as [[fa frc]| |] eqn:Ef; try discriminate E. cbn [bind] in E.
  destruct (Z.eqb_spec frc 0) as [->|Hne]; cbn [negb] in E; [|now destruct (Bad _ _ _ E)].
  destruct mmap as [p|e]; [|now destruct (Bad _ _ _ E)]. injection E as <- <-. cbn [mlen mptr page_size].
  split; [reflexivity|]. split; [reflexivity|]. exists (Open fd :: fa). split; [reflexivity|]. intros ->. right.
  destruct (fallocate_ok _ _ _ _ _ _ Ef) as (_ & _ & H3 & _). exact H3.
Qed.
Print Assumptions mmap_init_range.
Example mmap_init_range_ex : exists m, mmap_init (fun _ => [69; 0]) false 4096 0 (Good 4096) (Good 5) (Good 5000) [] (Good 65536) 9
  = Ok ([Open 5; Map 5 65536 904 4096], m, 0) /\ mlen m = 904.
Proof. eexists. split; reflexivity. Qed.

(** C60.  The pages msync(p, n) flushes: those that hold any of the bytes [p, p + n). *)
Definition flushed (ps : Z) (a : list sysact) (page : Z) : Prop :=
  exists p n, In (Sync p n) a /\ exists x, p <= x < p + n /\ x / ps = page.
Lemma align_down k offset : 0 <= k <= 62 -> 0 <= offset < 2 ^ 64 ->
  Z.land offset (u64 (Z.lnot (2 ^ k - 1))) = offset - offset mod 2 ^ k.
Proof.
  intros Hk Ho. transitivity (Z.ldiff offset (Z.ones k)).
  - apply Z.bits_inj'. intros i Hi. rewrite Z.land_spec, Z.ldiff_spec. unfold u64.
    replace (2 ^ k - 1) with (Z.ones k) by (rewrite Z.ones_equiv; lia).
    destruct (Z.lt_ge_cases i 64).
    + rewrite Z.mod_pow2_bits_low by lia. rewrite Z.lnot_spec by lia. reflexivity.
    + rewrite (Z.bits_above_log2 offset i); [reflexivity|lia|].
      destruct (Z.eq_dec offset 0) as [->|]; [cbn; lia|]. apply Z.lt_le_trans with 64; [apply Z.log2_lt_pow2; lia|lia].
  - rewrite Z.ldiff_ones_r by lia. rewrite Z.shiftl_mul_pow2, Z.shiftr_div_pow2 by lia.
    pose proof (Z.div_mod offset (2 ^ k)). lia.
Qed.
(** C60.  A successful sc_mmap_msync from a page boundary flushes every page that
    holds any of the bytes asked for. *)
Theorem mmap_msync_partial strerror m k offset len x a m' :
  0 <= k <= 62 -> page_size m = 2 ^ k -> 0 <= offset < 2 ^ 64 -> offset mod 2 ^ k = 0 ->
  mmap_msync strerror m offset len (Good x) = Ok (a, m', 0) ->
  forall i, offset <= i < offset + len -> flushed (2 ^ k) a ((mptr m + i) / 2 ^ k).
Proof.
  intros Hk Hp Ho Ha E i Hi. unfold mmap_msync in E. rewrite Hp, align_down in E by lia. injection E as <- <-.
  exists (mptr m + (offset - offset mod 2 ^ k)), len. split; [now left|]. exists (mptr m + i). split; [lia|reflexivity].
Qed.
Print Assumptions mmap_msync_partial.
Example mmap_msync_ex : mmap_msync (fun _ => [69; 0]) (mk_mapping 5 4096 65536 20000 (repeat 0 128)) 8192 5000 (Good 0) =
  Ok ([Sync 73728 5000], mk_mapping 5 4096 65536 20000 (repeat 0 128), 0).
Proof. reflexivity. Qed.
(** C60 fails otherwise: the start is moved down to the page and the length is not
    made longer.  sc_mmap_msync(&m, 4095, 2) does not flush the page of byte 4096. *)
Theorem mmap_msync_refuted : exists m a m', page_size m = 4096 /\ mptr m = 65536 /\
  mmap_msync (fun _ => [69; 0]) m 4095 2 (Good 0) = Ok (a, m', 0) /\ ~ flushed 4096 a ((mptr m + 4096) / 4096).
Proof.
  exists (mk_mapping 5 4096 65536 20000 (repeat 0 128)). do 2 eexists. split; [reflexivity|]. split; [reflexivity|]. split; [reflexivity|].
  intros (p & n & [H|[]] & x & Hx & Hq). injection H as <- <-. cbn in Hx, Hq. change (4095 + 1) with 4096 in *.
  assert (x = 65536 \/ x = 65537) as [-> | ->] by (cbn in Hx; lia); discriminate Hq.
Qed.
Print Assumptions mmap_msync_refuted.
(** What it does flush, from any offset: the pages of [offset - d, offset - d + len)
    where d is the distance to the page boundary. *)
Theorem mmap_msync_exact strerror m k offset len x a m' page :
  0 <= k <= 62 -> page_size m = 2 ^ k -> 0 <= offset < 2 ^ 64 ->
  mmap_msync strerror m offset len (Good x) = Ok (a, m', 0) ->
  (flushed (2 ^ k) a page <-> exists i, offset - offset mod 2 ^ k <= i < offset - offset mod 2 ^ k + len /\ (mptr m + i) / 2 ^ k = page).
Proof.
  intros Hk Hp Ho E. unfold mmap_msync in E. rewrite Hp, align_down in E by lia. injection E as <- <-. split.
  - intros (p & n & [H|[]] & y & Hy & Hq). injection H as <- <-. exists (y - mptr m). split; [lia|]. now replace (mptr m + (y - mptr m)) with y by lia.
  - intros (i & Hi & Hq). exists (mptr m + (offset - offset mod 2 ^ k)), len. split; [now left|]. exists (mptr m + i). split; [lia|exact Hq].
Qed.
Print Assumptions mmap_msync_exact.

(** ** Locking *)
(** A call on an existing mapping. *)
Inductive call := CLock (offset len : Z) (a : ans) | CUnlock (offset len : Z) (a : ans) | CSync (offset len : Z) (a : ans).
(** A history of calls; the system calls made, the structure and the results. *)
Fixpoint calls (strerror : Z -> list Z) (m : mapping) (l : list call) : res (list sysact * mapping * list Z) :=
  match l with
  | [] => Ok ([], m, [])
  | c :: l =>
      let* (a, m, rc) := match c with
                         | CLock o n x => mmap_mlock strerror m o n x
                         | CUnlock o n x => mmap_munlock strerror m o n x
                         | CSync o n x => mmap_msync strerror m o n x
                         end in
      let* (a', m, rcs) := calls strerror m l in Ok (a ++ a', m, rc :: rcs)
  end.
(** A page holds one of the bytes [p, p + n). *)
Definition touches (ps page p n : Z) : bool := (0 <? n) && (p / ps <=? page) && (page <=? (p + n - 1) / ps).
(** What the kernel has locked (mlock(2), munlock(2): all pages that hold part of the range). *)
Definition lock_step (ps page : Z) (now : bool) (x : sysact) : bool :=
  match x with
  | Lock p n => if touches ps page p n then true else now
  | Unlock p n => if touches ps page p n then false else now
  | _ => now
  end.
Definition locked (ps : Z) (a : list sysact) (page : Z) : bool := fold_left (lock_step ps page) a false.
(** What the answers say: 0 for a granted call, -1 else. *)
Definition rc_of (c : call) : Z :=
  match c with CLock _ _ x | CUnlock _ _ x | CSync _ _ x => match x with Good _ => 0 | Bad _ => -1 end end.
(** The last granted call that concerns a byte of the page locks it; [base]: the
    address of the mapping. *)
Definition want_step (ps base page : Z) (now : bool) (c : call) : bool :=
  match c with
  | CLock o n (Good _) => if touches ps page (base + o) n then true else now
  | CUnlock o n (Good _) => if touches ps page (base + o) n then false else now
  | _ => now
  end.
Definition wants (ps base : Z) (l : list call) (page : Z) : bool := fold_left (want_step ps base page) l false.
(** The error of the last refused call. *)
Definition error_step (e : option Z) (c : call) : option Z :=
  match c with CLock _ _ (Bad x) | CUnlock _ _ (Bad x) | CSync _ _ (Bad x) => Some x | _ => e end.
Definition last_error (l : list call) : option Z := fold_left error_step l None.

Lemma map_err_gen msg tl m : nonul msg -> zlen (merr m) = 128 -> zget (merr m) 127 = Some 0 ->
  exists m', map_err (msg ++ 0 :: tl) m = Ok m' /\ mfd m' = mfd m /\ mptr m' = mptr m /\ mlen m' = mlen m /\ page_size m' = page_size m /\
    says (merr m') msg /\ zlen (merr m') = 128 /\ zget (merr m') 127 = Some 0.
Proof.
  intros Hn He Hz. unfold map_err. set (x := firstn 127 _).
  assert (Hx : zlen x = 127) by (unfold x, zlen; rewrite firstn_length, !app_length, repeat_length; cbn [length]; lia).
  rewrite memcpy_ok; [|lia|rewrite Hx; lia]. cbn [bind]. eexists. split; [reflexivity|]. cbn [mfd mptr mlen page_size merr].
  rewrite Hx. change (Z.to_nat 0) with 0%nat. change (Z.to_nat (0 + 127)) with 127%nat.
  assert (Es : skipn 127 (merr m) = [0]).
  { assert (L : length (skipn 127 (merr m)) = 1%nat) by (rewrite skipn_length; unfold zlen in He; lia).
    destruct (skipn 127 (merr m)) as [|y [|]] eqn:E; try discriminate L. f_equal.
    rewrite <- (firstn_skipn 127 (merr m)), E in Hz. unfold zget in Hz. cbn [Z.ltb Z.compare] in Hz.
    rewrite nth_error_app2 in Hz; [|rewrite firstn_length; unfold zlen in He; lia].
    rewrite firstn_length in Hz. replace (Z.to_nat 127 - Nat.min 127 (length (merr m)))%nat with 0%nat in Hz by (unfold zlen in He; lia).
    cbn in Hz. congruence. }
  rewrite Es. cbn [firstn app]. repeat split.
  - unfold says. destruct (Z.lt_ge_cases (zlen msg) 127) as [H|H]; unfold zlen in H.
    + assert (E : exists r, x = msg ++ 0 :: r).
      { unfold x. rewrite <- app_assoc. rewrite firstn_app. rewrite firstn_all2 by lia. destruct (127 - length msg)%nat eqn:Ek; [lia|]. cbn. eauto. }
      destruct E as (r & ->). exists (r ++ [0]). rewrite firstn_all2 by lia. now rewrite <- app_assoc.
    + exists []. unfold x. rewrite <- app_assoc, firstn_app. replace (127 - length msg)%nat with 0%nat by lia. cbn. now rewrite app_nil_r.
  - rewrite zlen_app, Hx. reflexivity.
  - unfold zget. cbn [Z.ltb Z.compare]. rewrite nth_error_app2 by (unfold zlen in Hx; lia).
    replace (Z.to_nat 127 - length x)%nat with 0%nat by (unfold zlen in Hx; lia). reflexivity.
Qed.

(** The error array shows the error [e], or is as it was. *)
Definition shows (strerror : Z -> list Z) (old : list Z) (e : option Z) (m : mapping) : Prop :=
  match e with
  | Some e => exists msg tl, strerror e = msg ++ 0 :: tl /\ nonul msg /\ says (merr m) msg
  | None => merr m = old
  end.

(** C94.  For every history of mlock, munlock and msync calls on a mapping, with any
    answers: a call returns 0 if granted and -1 else; a page is locked exactly if
    the last granted call concerning a byte of it was mlock; the error text is
    that of the last refused call; the mapping stays as it is. *)
Theorem mmap_lock_history strerror m l :
  (forall e, exists msg tl, strerror e = msg ++ 0 :: tl /\ nonul msg) ->
  zlen (merr m) = 128 -> zget (merr m) 127 = Some 0 ->
  exists a m', calls strerror m l = Ok (a, m', map rc_of l) /\
    (forall page, locked (page_size m) a page = wants (page_size m) (mptr m) l page) /\
    (mfd m', page_size m', mptr m', mlen m') = (mfd m, page_size m, mptr m, mlen m) /\
    shows strerror (merr m) (last_error l) m'.
Proof.
  intros Hm. unfold locked, wants, last_error.
  assert (G : forall l m e old, zlen (merr m) = 128 -> zget (merr m) 127 = Some 0 -> shows strerror old e m ->
    exists a m', calls strerror m l = Ok (a, m', map rc_of l) /\
    (forall page now, fold_left (lock_step (page_size m) page) a now = fold_left (want_step (page_size m) (mptr m) page) l now) /\
    (mfd m', page_size m', mptr m', mlen m') = (mfd m, page_size m, mptr m, mlen m) /\
    shows strerror old (fold_left error_step l e) m').
  { clear l m. induction l as [|c l IH]; intros m e old L1 L2 Sh.
    - exists [], m. cbn. auto.
    - assert (Step : exists a1 m1 e1,
        match c with CLock o n x => mmap_mlock strerror m o n x | CUnlock o n x => mmap_munlock strerror m o n x | CSync o n x => mmap_msync strerror m o n x end = Ok (a1, m1, rc_of c) /\
        (forall page now, fold_left (lock_step (page_size m) page) a1 now = want_step (page_size m) (mptr m) page now c) /\
        (mfd m1, page_size m1, mptr m1, mlen m1) = (mfd m, page_size m, mptr m, mlen m) /\
        error_step e c = e1 /\ shows strerror old e1 m1 /\ zlen (merr m1) = 128 /\ zget (merr m1) 127 = Some 0).
      { assert (Fail : forall x, exists m1, map_err (strerror x) m = Ok m1 /\ (mfd m1, page_size m1, mptr m1, mlen m1) = (mfd m, page_size m, mptr m, mlen m) /\
          shows strerror old (Some x) m1 /\ zlen (merr m1) = 128 /\ zget (merr m1) 127 = Some 0).
        { intros x. destruct (Hm x) as (msg & tl & Es & Hn).
          destruct (map_err_gen msg tl m Hn L1 L2) as (m1 & E1 & F1 & F2 & F3 & F4 & F5 & F6 & F7).
          exists m1. rewrite Es. split; [exact E1|]. split; [congruence|]. split; [exists msg, tl; auto|auto]. }
        destruct c as [o n [v|x]|o n [v|x]|o n [v|x]]; cbn [mmap_mlock mmap_munlock mmap_msync];
          try (destruct (Fail x) as (m1 & E1 & F1 & F2 & F3 & F4); rewrite E1; cbn [bind]);
          do 3 eexists; (split; [reflexivity|]); (split; [reflexivity|]); auto 10. }
      destruct Step as (a1 & m1 & e1 & E1 & HL1 & Hf1 & He1 & Sh1 & L3 & L4).
      destruct (IH m1 e1 old L3 L4 Sh1) as (a & m' & E & HL & Hf & Sh').
      injection Hf1 as G1 G2 G3 G4. rewrite G1, G2, G3, G4 in Hf. rewrite G2, G3 in HL.
      exists (a1 ++ a), m'. cbn [calls]. rewrite E1. cbn [bind]. rewrite E. cbn [bind map].
      split; [reflexivity|]. split; [|split; [exact Hf|]].
      + intros page now. rewrite fold_left_app, HL1, HL. reflexivity.
      + cbn [fold_left]. rewrite He1. exact Sh'. }
  intros L1 L2. destruct (G l m None (merr m) L1 L2 eq_refl) as (a & m' & E & HL & Hf & Sh). exists a, m'. auto.
Qed.
Print Assumptions mmap_lock_history.
Example mmap_lock_ex :
  let m := mk_mapping 5 4096 65536 20000 (repeat 0 128) in
  let l := [CLock 4000 200 (Good 0); CUnlock 0 100 (Good 0); CLock 9000 1 (Bad 12)] in
  exists a m', calls (fun _ => [69; 0]) m l = Ok (a, m', [0; 0; -1]) /\ a = [Lock 69536 200; Unlock 65536 100] /\
    map (locked 4096 a) [16; 17; 18] = [false; true; false] /\ firstn 2 (merr m') = [69; 0].
Proof. do 2 eexists. split; [vm_compute; reflexivity|]. split; [reflexivity|]. split; [vm_compute; reflexivity|]. vm_compute. reflexivity. Qed.
