(** Proofs about the logger called by several threads. *)
From Verif Require Import Base CStr CNum SigSpec StrSpec StrProofs IniModel LogModel LogSpec LogProofs LogConcModel LogConcSpec.

(** ** Worlds *)
Definition W (lev : Z) (r : rest) (nm : Z -> list Z) : world :=
  mk_world (relevel (r_lg r) lev) (r_out r) (r_err r) (r_calls r) (r_fs r) nm.

Lemma world_of_W m : world_of m = W (m_lev m) (m_rest m) (m_name m).
Proof. reflexivity. Qed.

(** The state of the shared data between calls. *)
Definition good (w : world) : Prop :=
  good_lg (lg w) /\ forall t, holds 31 (names w t) (before_nul (names w t)).

Lemma before_nul_holds n m t : LogProofs.holds n m t -> before_nul m = t.
Proof. intros (_ & _ & Hn & b & ->). rewrite before_nul_app by exact Hn. cbn. apply app_nil_r. Qed.

Lemma good_agrees w : good w ->
  agrees w (mk_config (inited (lg w)) (level (lg w)) (to_stdout (lg w)) (cb (lg w)) (fun t => before_nul (names w t))).
Proof. intros [G H]. split; [exact G|]. cbn. auto. Qed.

Lemma agrees_good w c : agrees w c -> good w.
Proof.
  intros (G & _ & _ & _ & _ & H). split; [exact G|]. intro t. specialize (H t).
  now rewrite (before_nul_holds _ _ _ H).
Qed.

Lemma step_good w o : good w -> op_ok o -> exists w' rc, step w o = Ok (w', rc) /\ good w'.
Proof.
  intros G H. destruct (step_ok w _ o (good_agrees w G) H) as (w' & rc & E & A & _).
  exists w', rc. split; [exact E|]. eapply agrees_good; eauto.
Qed.

(** ** Programs under the mutex *)
Inductive runs (fl : bool) (name : list Z) : prog -> Z * rest -> Z * rest -> prog -> Prop :=
| runs_unlock k x : runs fl name (Unlock k) x x k
| runs_load k lev r y p : fl = true -> runs fl name (k lev) (lev, r) y p -> runs fl name (Load k) (lev, r) y p
| runs_store k lv lev r y p : fl = true -> runs fl name k (lv, r) y p -> runs fl name (Store lv k) (lev, r) y p
| runs_act a lev r r1 k y p : a name r = Ok (r1, k) -> runs fl name k (lev, r1) y p ->
    runs fl name (Act a) (lev, r) y p.

Lemma runs_level name p x y k : runs false name p x y k ->
  fst y = fst x /\ forall lev, runs false name p (lev, snd x) (lev, snd y) k.
Proof.
  induction 1 as [k x| | |a lev r r1 k y p E R [I1 I2]]; try discriminate.
  - split; [reflexivity|]. intro lev. constructor.
  - split; [exact I1|]. intro l. econstructor; [exact E|]. apply I2.
Qed.

Lemma header_rc lv name st a h rc : print_header lv name st a = Ok (h, rc) -> rc = 0 \/ rc = -1.
Proof.
  unfold print_header. destruct st; [|intro E; injection E as _ <-; auto].
  destruct zget; [|discriminate]. cbn [or_ub bind].
  destruct cstring; [|discriminate|discriminate]. cbn [bind].
  destruct fprintf as [? r]. destruct (r <? 0); intro E; injection E as _ <-; auto.
Qed.

(** The console part of sc_log_log. *)
Lemma console_part t lv msg ao name n r : holds 31 name n -> 0 <= lv <= 4 ->
  exists r1 rc1, r_lg r1 = r_lg r /\ r_fs r1 = r_fs r /\ r_calls r1 = r_calls r /\
    (forall lev nm, nm t = name ->
      (if to_stdout (relevel (r_lg r) lev) then
        let* (b, rc) := log_stdout lv (nm t) msg ao in
        Ok (if lv =? LERROR
            then mk_world (relevel (r_lg r) lev) (r_out r) (r_err r ++ b) (r_calls r) (r_fs r) nm
            else mk_world (relevel (r_lg r) lev) (r_out r ++ b) (r_err r) (r_calls r) (r_fs r) nm, rc)
       else Ok (W lev r nm, 0)) = Ok (W lev r1 nm, rc1)) /\
    (forall fl lev k y p, runs fl name (k rc1) (lev, r1) y p ->
       runs fl name (log_to_console k lv msg ao) (lev, r) y p).
Proof.
  intros Hn Hl. unfold log_to_console, log_stdout, W. cbn [to_stdout relevel].
  destruct (to_stdout (r_lg r)) eqn:Es.
  - destruct (header_any lv name n (stamp ao) (hio ao) Hl Hn) as (h & rc & Eh).
    destruct (rc <? 0) eqn:Er.
    + exists (print_r r lv h), (-1). split; [unfold print_r; destruct (lv =? LERROR); reflexivity|].
      split; [unfold print_r; destruct (lv =? LERROR); reflexivity|].
      split; [unfold print_r; destruct (lv =? LERROR); reflexivity|]. split.
      * intros lev nm ->. rewrite Eh. cbn [bind]. rewrite Er. cbn [bind].
        unfold print_r. destruct (lv =? LERROR); reflexivity.
      * intros fl lev k y p R. econstructor; [|exact R]. rewrite Es, Eh. cbn [bind]. now rewrite Er.
    + destruct (fprintf msg (mio ao)) as [b rc2] eqn:Ef.
      exists (print_r (print_r r lv h) lv b), (if rc2 <? 0 then -1 else 0).
      split; [unfold print_r; destruct (lv =? LERROR); reflexivity|].
      split; [unfold print_r; destruct (lv =? LERROR); reflexivity|].
      split; [unfold print_r; destruct (lv =? LERROR); reflexivity|]. split.
      * intros lev nm ->. rewrite Eh. cbn [bind]. rewrite Er. cbn [bind].
        unfold print_r. destruct (lv =? LERROR); cbn; rewrite app_assoc; reflexivity.
      * intros fl lev k y p R. econstructor; [rewrite Es, Eh; cbn [bind]; rewrite Er; reflexivity|].
        unfold log_say. econstructor; [|exact R]. now rewrite Ef.
  - exists r, 0. split; [reflexivity|]. split; [reflexivity|]. split; [reflexivity|]. split.
    + reflexivity.
    + intros fl lev k y p R. econstructor; [|exact R]. now rewrite Es.
Qed.

Lemma put_put f p a b : forall q, put (put f p a) p b q = put f p b q.
Proof. intro q. unfold put. destruct (same q p); reflexivity. Qed.

(** The file part. *)
Lemma file_part t lv msg af mv ok name n r : holds 31 name n -> 0 <= lv <= 4 -> good_lg (r_lg r) ->
  exists r1 rc1, cb (r_lg r1) = cb (r_lg r) /\ r_out r1 = r_out r /\ r_err r1 = r_err r /\ r_calls r1 = r_calls r /\
    (forall lev nm, nm t = name ->
      match fp (relevel (r_lg r) lev) with
      | Some path =>
          let* (l, f, rc) := log_file (relevel (r_lg r) lev) (r_fs r) path lv (nm t) msg af mv ok in
          Ok (mk_world l (r_out r) (r_err r) (r_calls r) f nm, rc)
      | None => Ok (W lev r nm, 0)
      end = Ok (W lev r1 nm, rc1)) /\
    (forall fl lev k y p, runs fl name (k rc1) (lev, r1) y p ->
       runs fl name (log_to_file k lv msg af mv ok) (lev, r) y p).
Proof.
  intros Hn Hl (cur & prev & Hc & Hp & Hf). unfold log_to_file, log_file, W. cbn [fp relevel].
  destruct (fp (r_lg r)) as [path|] eqn:Ep.
  2:{ exists r, 0. do 4 (split; [reflexivity|]). split; [reflexivity|].
      intros fl lev k y p R. econstructor; [|exact R]. now rewrite Ep. }
  destruct (header_any lv name n (stamp af) (hio af) Hl Hn) as (h & rc & Eh).
  pose proof (header_rc _ _ _ _ _ _ Eh) as Hrc.
  destruct (rc <? 0) eqn:Er.
  { exists (append_r r path h), (-1). do 4 (split; [reflexivity|]). split.
    - intros lev nm ->. rewrite Eh. cbn [bind]. rewrite Er. reflexivity.
    - intros fl lev k y p R. econstructor; [|exact R]. rewrite Ep, Eh. cbn [bind]. now rewrite Er. }
  assert (rc = 0) as -> by lia.
  destruct (fprintf msg (mio af)) as [b size] eqn:Ef.
  destruct (size <? 0) eqn:Esz.
  { exists (append_r (append_r r path h) path b), (-1). do 4 (split; [reflexivity|]). split.
    - intros lev nm ->. rewrite Eh. cbn [bind]. rewrite Er. cbv beta iota zeta. try rewrite Esz. reflexivity.
    - intros fl lev k y p R. econstructor; [rewrite Ep, Eh; cbn [bind]; rewrite Er; reflexivity|].
      unfold log_body. econstructor; [|exact R]. rewrite Ef. cbv beta iota zeta. now rewrite Esz. }
  set (sz := u64 (file_size (r_lg r) + size)).
  set (r2 := with_r (append_r (append_r r path h) path b)
               (mk_logger (Some path) (current_file (r_lg r)) (prev_file (r_lg r)) sz (level (r_lg r))
                  (inited (r_lg r)) (to_stdout (r_lg r)) (cb (r_lg r)))).
  assert (R2 : forall fl lev k y p,
     runs fl name (if FILE_SIZE <? sz then log_rename k mv ok else k 0) (lev, r2) y p ->
     runs fl name (Act (fun name r =>
        match fp (r_lg r) with
        | Some path0 =>
            let* (h, rc) := print_header lv name (stamp af) (hio af) in
            let r := append_r r path0 h in
            if rc <? 0 then Ok (r, k (-1)) else Ok (r, log_body k path0 msg af mv ok)
        | None => Ok (r, k 0)
        end)) (lev, r) y p).
  { intros fl lev k y p R. econstructor; [rewrite Ep, Eh; cbn [bind]; rewrite Er; reflexivity|].
    unfold log_body. econstructor; [|exact R]. rewrite Ef. cbv beta iota zeta. try rewrite Esz.
    change (r_lg (append_r (append_r r path h) path b)) with (r_lg r). fold sz. rewrite Ep. fold r2.
    destruct (FILE_SIZE <? sz); reflexivity. }
  destruct (FILE_SIZE <? sz) eqn:Efs.
  - set (f3 := if mv then rename (r_fs r2) cur prev else r_fs r2).
    exists (if ok then with_r (files_r r2 (put f3 cur (Some [])))
                         (mk_logger (Some cur) (current_file (r_lg r)) (prev_file (r_lg r)) 0 (level (r_lg r))
                            (inited (r_lg r)) (to_stdout (r_lg r)) (cb (r_lg r)))
            else with_r (files_r r2 f3)
                   (mk_logger None (current_file (r_lg r)) (prev_file (r_lg r)) sz (level (r_lg r))
                      (inited (r_lg r)) (to_stdout (r_lg r)) (cb (r_lg r)))), (if ok then 0 else -1).
    do 4 (split; [destruct ok; reflexivity|]). split.
    + intros lev nm ->. rewrite Eh. cbn [bind]. rewrite Er. cbv beta iota zeta. try rewrite Esz.
      cbn [file_size relevel current_file prev_file fp level inited to_stdout cb]. fold sz. rewrite Efs.
      rewrite (holds_cstring _ _ _ Hc), (holds_cstring _ _ _ Hp). cbn [bind].
      destruct ok; reflexivity.
    + intros fl lev k y p R. apply R2. unfold log_rename. econstructor.
      * cbn [r_lg r2 with_r current_file prev_file].
        rewrite (holds_cstring _ _ _ Hc), (holds_cstring _ _ _ Hp). reflexivity.
      * unfold log_reopen. econstructor; [|exact R]. destruct ok; reflexivity.
  - exists r2, 0. do 4 (split; [reflexivity|]). split.
    + intros lev nm ->. rewrite Eh. cbn [bind]. rewrite Er. cbv beta iota zeta. try rewrite Esz.
      cbn [file_size relevel current_file prev_file fp level inited to_stdout cb]. fold sz. rewrite Efs, ?Ep. reflexivity.
    + intros fl lev k y p R. apply R2. exact R.
Qed.

(** sc_log_log under the mutex. *)
Lemma sinks_ok t lv msg ao af mv ok crc name n r : holds 31 name n -> 0 <= lv <= 4 -> good_lg (r_lg r) ->
  exists r' rc,
    (forall fl lev, runs fl name (log_sinks lv msg ao af mv ok crc) (lev, r) (lev, r') (Done rc)) /\
    (forall lev nm, nm t = name -> lev <= lv ->
       step (W lev r nm) (Log t lv msg ao af mv ok crc) = Ok (W lev r' nm, rc)).
Proof.
  intros Hn Hl Hg.
  destruct (console_part t lv msg ao name n r Hn Hl) as (r1 & rc1 & L1 & F1 & C1 & S1 & R1).
  destruct (file_part t lv msg af mv ok name n r1 Hn Hl) as (r2 & rc2 & L2 & O2 & E2 & C2 & S2 & R2); [now rewrite L1|].
  assert (Ecb : cb (r_lg r2) = cb (r_lg r)) by now rewrite L2, L1.
  set (rc := Z.lor (Z.lor rc1 rc2) (match cb (r_lg r) with Some _ => crc | None => 0 end)).
  set (r3 := match cb (r_lg r) with
             | Some arg => mk_rest (r_lg r2) (r_out r2) (r_err r2) (r_calls r2 ++ [(arg, lv, msg)]) (r_fs r2)
             | None => r2 end).
  exists r3, rc. split.
  - intros fl lev. unfold log_sinks. apply R1. apply R2. unfold log_call. econstructor.
    + rewrite Ecb. instantiate (2 := r3). instantiate (1 := Unlock (Done rc)).
      unfold r3, rc. destruct (cb (r_lg r)); reflexivity.
    + constructor.
  - intros lev nm En Hle. cbn [step]. unfold log. cbv zeta.
    change (level (lg (W lev r nm))) with lev. replace (lv <? lev) with false by lia.
    match goal with |- bind ?x _ = _ =>
      replace x with (Ok (W lev r1 nm, rc1)) by (symmetry; exact (S1 lev nm En)) end.
    cbn [bind].
    match goal with |- bind ?x _ = _ =>
      replace x with (Ok (W lev r2 nm, rc2))
        by (symmetry; change (lg (W lev r nm)) with (relevel (r_lg r) lev); rewrite <- L1; exact (S2 lev nm En)) end.
    cbn [bind]. change (cb (lg (W lev r nm))) with (cb (r_lg r)).
    unfold r3, rc. destruct (cb (r_lg r)); reflexivity.
Qed.

(** sc_log_set_file under the mutex. *)
Lemma set_file_body p c ok nl tell e name r : good_lg (r_lg r) -> op_ok (SetFile p c ok nl tell e) ->
  exists r' rc,
    (forall fl lev, runs fl name (Act (fun _ r =>
        let* l := close_file (r_lg r) in Ok (with_r r l, file_names p c ok nl tell))) (lev, r) (lev, r') (Done rc)) /\
    (forall lev nm, step (W lev r nm) (SetFile p c ok nl tell e) = Ok (W lev r' nm, rc)).
Proof.
  intros (cur & prev & Hc & Hp & _) [Op Oc].
  destruct (clear_holds _ _ _ Hp) as (p0 & Ep & Hp0); [lia|].
  destruct (clear_holds _ _ _ Hc) as (c0 & Ec & Hc0); [lia|].
  set (l0 := mk_logger None c0 p0 (file_size (r_lg r)) (level (r_lg r)) (inited (r_lg r)) (to_stdout (r_lg r)) (cb (r_lg r))).
  assert (El : close_file (r_lg r) = Ok l0) by (unfold close_file; rewrite Ep; cbn [bind]; rewrite Ec; reflexivity).
  assert (Er : forall lev, close_file (relevel (r_lg r) lev) = Ok (relevel l0 lev)).
  { intro lev. unfold close_file. cbn [prev_file current_file relevel]. rewrite Ep. cbn [bind]. rewrite Ec. reflexivity. }
  assert (F : forall r' rc,
    (forall fl lev, runs fl name (file_names p c ok nl tell) (lev, with_r r l0) (lev, r') (Done rc)) ->
    (forall lev nm, exists e',
       match p, c with
       | Some pm, Some cm =>
           let* np := strlen pm in
           let* nc := if 256 - 1 <=? np then Ok 0 else strlen cm in
           if (256 - 1 <=? np) || (256 - 1 <=? nc) then Ok (relevel l0 lev, r_fs r, -1, e)
           else
             let* bp := bytes_at pm 0 (np + 1) in
             let* p := memcpy p0 0 bp in
             let* bc := bytes_at cm 0 (nc + 1) in
             let* c := memcpy c0 0 bc in
             let l := mk_logger None c p (file_size (r_lg r)) lev (inited (r_lg r)) (to_stdout (r_lg r)) (cb (r_lg r)) in
             let* path := cstring c in
             if negb ok then Ok (l, r_fs r, -1, e)
             else
               let '(b, rc) := fprintf [10] nl in
               let f := put (r_fs r) path (Some (content (r_fs r) path ++ b)) in
               if rc <? 0 then Ok (l, f, -1, e)
               else if negb tell then Ok (l, f, -1, e)
               else Ok (mk_logger (Some path) c p (zlen (content f path)) lev (inited (r_lg r)) (to_stdout (r_lg r))
                          (cb (r_lg r)), f, 0, 0)
       | _, _ => Ok (relevel l0 lev, r_fs r, 0, 0)
       end = Ok (relevel (r_lg r') lev, r_fs r', rc, e') /\
       W lev r' nm = mk_world (relevel (r_lg r') lev) (r_out r) (r_err r) (r_calls r) (r_fs r') nm) ->
    exists r' rc,
    (forall fl lev, runs fl name (Act (fun _ r =>
        let* l := close_file (r_lg r) in Ok (with_r r l, file_names p c ok nl tell))) (lev, r) (lev, r') (Done rc)) /\
    (forall lev nm, step (W lev r nm) (SetFile p c ok nl tell e) = Ok (W lev r' nm, rc))).
  { intros r' rc H1 H2. exists r', rc. split.
    - intros fl lev. econstructor; [rewrite El; reflexivity|]. apply H1.
    - intros lev nm. destruct (H2 lev nm) as (e' & E & Ew). rewrite Ew. cbn [step]. unfold set_file.
      change (lg (W lev r nm)) with (relevel (r_lg r) lev). rewrite Er. cbn [bind].
      change (fs (W lev r nm)) with (r_fs r).
      match goal with |- bind ?x _ = _ => replace x with (Ok (relevel (r_lg r') lev, r_fs r', rc, e')) by (symmetry; exact E) end.
      reflexivity. }
  destruct p as [pm|]; [destruct c as [cm|]|].
  2:{ apply (F (with_r r l0) 0); [intros fl lev; econstructor; [reflexivity|constructor]|].
      intros lev nm. eexists. split; reflexivity. }
  2:{ apply (F (with_r r l0) 0); [intros fl lev; econstructor; [reflexivity|constructor]|].
      intros lev nm. eexists. split; reflexivity. }
  destruct (Op pm eq_refl) as (ps & Hps & rp & ->). destruct (Oc cm eq_refl) as (cs & Hcs & rc & ->).
  revert F. rewrite strlen_ok by exact Hps. rewrite (strlen_ok cs) by exact Hcs. cbn [bind]. intro F.
  unfold file_names in F.
  destruct (Z.leb_spec (256 - 1) (zlen ps)) as [Lp|Lp].
  { apply (F (with_r r l0) (-1)).
    - intros fl lev. econstructor; [|constructor]. rewrite strlen_ok by exact Hps. cbn [bind].
      replace (256 - 1 <=? zlen ps) with true by lia. reflexivity.
    - intros lev nm. eexists. split; reflexivity. }
  destruct (Z.leb_spec (256 - 1) (zlen cs)) as [Lc|Lc].
  { apply (F (with_r r l0) (-1)).
    - intros fl lev. econstructor; [|constructor]. rewrite strlen_ok by exact Hps. cbn [bind].
      replace (256 - 1 <=? zlen ps) with false by lia. rewrite strlen_ok by exact Hcs. cbn [bind].
      replace (256 - 1 <=? zlen cs) with true by lia. reflexivity.
    - intros lev nm. eexists. split; [|reflexivity]. cbn [bind orb].
      replace (256 - 1 <=? zlen cs) with true by lia. reflexivity. }
  destruct (copy_holds _ _ _ ps rp Hp0 Hps) as (b1 & p1 & E1 & E2 & Hp1); [lia|].
  destruct (copy_holds _ _ _ cs rc Hc0 Hcs) as (b2 & c1 & E3 & E4 & Hc1); [lia|].
  pose proof (holds_cstring _ _ _ Hc1) as Es.
  cbn [bind orb] in F. replace (256 - 1 <=? zlen cs) with false in F by lia.
  rewrite E1 in F. cbn [bind] in F. rewrite E2 in F. cbn [bind] in F. rewrite E3 in F. cbn [bind] in F.
  rewrite E4 in F. cbn [bind] in F. rewrite Es in F. cbn [bind] in F.
  set (r1 := with_r r (mk_logger None c1 p1 (file_size (r_lg r)) (level (r_lg r)) (inited (r_lg r)) (to_stdout (r_lg r)) (cb (r_lg r)))).
  assert (R : forall fl lev y q, runs fl name (file_open ok nl tell) (lev, r1) y q ->
     runs fl name (file_names (Some (ps ++ 0 :: rp)) (Some (cs ++ 0 :: rc)) ok nl tell) (lev, with_r r l0) y q).
  { intros fl lev y q H. econstructor; [|exact H]. rewrite strlen_ok by exact Hps. cbn [bind].
    replace (256 - 1 <=? zlen ps) with false by lia. rewrite strlen_ok by exact Hcs. cbn [bind orb].
    replace (256 - 1 <=? zlen cs) with false by lia. rewrite E1. cbn [bind r_lg with_r prev_file current_file l0].
    rewrite E2. cbn [bind]. rewrite E3. cbn [bind]. rewrite E4. reflexivity. }
  destruct ok; cbn [negb] in F.
  2:{ apply (F r1 (-1)).
      - intros fl lev. apply R. econstructor; [|constructor]. cbn [r_lg r1 with_r current_file]. rewrite Es. reflexivity.
      - intros lev nm. eexists. split; reflexivity. }
  destruct (fprintf [10] nl) as [b rc1] eqn:Ef. cbv beta iota zeta in F.
  destruct (rc1 <? 0) eqn:Erc.
  { apply (F (append_r r1 cs b) (-1)).
    - intros fl lev. apply R. econstructor.
      + cbn [r_lg r1 with_r current_file]. rewrite Es. cbn [bind negb]. rewrite Ef, Erc. reflexivity.
      + constructor.
    - intros lev nm. eexists. split; reflexivity. }
  assert (R2 : forall fl lev y q, runs fl name (file_on cs tell) (lev, append_r r1 cs b) y q ->
     runs fl name (file_open true nl tell) (lev, r1) y q).
  { intros fl lev y q H. econstructor; [|exact H]. cbn [r_lg r1 with_r current_file]. rewrite Es. cbn [bind negb].
    now rewrite Ef, Erc. }
  destruct tell; cbn [negb] in F.
  - apply (F (with_r (append_r r1 cs b) (mk_logger (Some cs) c1 p1 (zlen (content (r_fs (append_r r1 cs b)) cs))
             (level (r_lg r)) (inited (r_lg r)) (to_stdout (r_lg r)) (cb (r_lg r)))) 0).
    + intros fl lev. apply R, R2. econstructor; [reflexivity|]. constructor.
    + intros lev nm. eexists. split; reflexivity.
  - apply (F (append_r r1 cs b) (-1)).
    + intros fl lev. apply R, R2. econstructor; [reflexivity|]. constructor.
    + intros lev nm. eexists. split; reflexivity.
Qed.

(** A message. *)
Definition is_log (o : op) : Prop := match o with Log _ _ _ _ _ _ _ _ => True | _ => False end.

(** Any call that takes the mutex first. *)
Lemma locked_ok (at_ : bool) t o k name n lev r : holds 31 name n -> good_lg (r_lg r) ->
  call_ok (Call t o) -> code at_ o = Ok (Lock k) ->
  exists lev' r' rc, (at_ = true -> ~ is_log o) /\
    runs (negb at_) name k (lev, r) (lev', r') (Done rc) /\
    forall lv nm, (at_ = false -> lv = lev) -> nm t = name ->
      step (W lv r nm) o = Ok (W (if at_ then lv else lev') r' nm, rc).
Proof.
  intros Hn Hg Ho E. destruct o as [rc0|ok|u m|s|b|p c ok nl tell e|c|u lv msg ao af mv ok crc]; cbn [code] in E; try discriminate.
  - destruct (find_level s 0 level_names) as [x| |] eqn:Ex; cbn [bind] in E; try discriminate.
    destruct x as [i|]; [|discriminate]. destruct at_; [discriminate|]. injection E as <-.
    exists i, r, 0. split; [discriminate|]. split; [constructor; [reflexivity|]; constructor|].
    intros lv nm Hlv En. rewrite (Hlv eq_refl). cbn [step]. unfold set_level. rewrite Ex. reflexivity.
  - injection E as <-. exists lev, (with_r r (set_stdout (r_lg r) b)), 0. split; [auto|].
    split; [econstructor; [reflexivity|]; constructor|].
    intros lv nm Hlv En. destruct at_; [reflexivity|]. now rewrite (Hlv eq_refl).
  - injection E as <-. destruct (set_file_body p c ok nl tell e name r Hg Ho) as (r' & rc & H1 & H2).
    exists lev, r', rc. split; [auto|]. split; [apply H1|].
    intros lv nm Hlv En. rewrite H2. destruct at_; [reflexivity|]. now rewrite (Hlv eq_refl).
  - injection E as <-. exists lev, (with_r r (set_callback (r_lg r) c)), 0. split; [auto|].
    split; [econstructor; [reflexivity|]; constructor|].
    intros lv nm Hlv En. destruct at_; [reflexivity|]. now rewrite (Hlv eq_refl).
  - destruct at_; [discriminate|]. injection E as <-. destruct Ho as [-> Ho]. cbn [op_ok] in Ho.
    destruct (Z.ltb_spec lv lev) as [Hl|Hl].
    + exists lev, r, 0. split; [discriminate|]. split.
      * constructor; [reflexivity|]. replace (lv <? lev) with true by lia. constructor.
      * intros l nm Hlv En. rewrite (Hlv eq_refl). cbn [step]. unfold log. cbv zeta.
        change (level (lg (W lev r nm))) with lev. replace (lv <? lev) with true by lia. reflexivity.
    + destruct (sinks_ok t lv msg ao af mv ok crc name n r Hn Ho Hg) as (r' & rc & R & S).
      exists lev, r', rc. split; [discriminate|]. split.
      * constructor; [reflexivity|]. replace (lv <? lev) with false by lia. apply R.
      * intros l nm Hlv En. rewrite (Hlv eq_refl). apply S; [exact En|lia].
Qed.
