From Verif Require Import Base Num CStr CNum StrSpec StrProofs ScModel ScProofs IniProofs SigModel SigSpec.

(** Digits. *)
Lemma value_snoc base ds d : value base (ds ++ [d]) = base * value base ds + d.
Proof. unfold value. rewrite fold_left_app. reflexivity. Qed.
Lemma value_lower base ds : 2 <= base -> Forall (fun d => 0 <= d < base) ds -> ds <> [] -> hd 0 ds <> 0 ->
  base ^ (zlen ds - 1) <= value base ds.
Proof.
  intros Hb. induction ds as [|d ds IH] using rev_ind; intros Hf Hn Hh; [easy|].
  apply Forall_app in Hf as [Hf Hd]. inversion Hd as [|? ? Hd' _]; subst.
  rewrite value_snoc, zlen_app. change (zlen [d]) with 1.
  destruct ds as [|e ds].
  - cbn in Hh |- *. lia.
  - assert (IH' := IH Hf ltac:(easy) ltac:(exact Hh)). 
    replace (zlen (e :: ds) + 1 - 1) with (Z.succ (zlen (e :: ds) - 1)) by lia.
    rewrite Z.pow_succ_r by (rewrite zlen_cons; pose proof (zlen_nonneg ds); lia). nia.
Qed.
Lemma value_nonneg base ds : 2 <= base -> Forall (fun d => 0 <= d < base) ds -> 0 <= value base ds.
Proof.
  intro Hb. induction ds as [|d ds IH] using rev_ind; intros Hf; [cbn; lia|].
  apply Forall_app in Hf as [Hf Hd]. inversion Hd; subst. rewrite value_snoc. specialize (IH Hf). nia.
Qed.
Lemma numeral_len base n k ds : 2 <= base -> 0 < k -> n < base ^ k -> Forall (fun d => 0 <= d < base) ds ->
  value base ds = n -> ds <> [] -> (hd 0 ds = 0 -> ds = [0]) -> zlen ds <= k.
Proof.
  intros Hb Hk Hn Hf Hv Hne Hh. destruct (Z.eq_dec (hd 0 ds) 0) as [E|E].
  - rewrite (Hh E). cbn. lia.
  - pose proof (value_lower base ds Hb Hf Hne E). destruct (Z.le_gt_cases (zlen ds) k); [assumption|].
    assert (base ^ k <= base ^ (zlen ds - 1)) by (apply Z.pow_le_mono_r; lia). lia.
Qed.
Lemma put_digits_ok digit base : 2 <= base -> forall ds a b fuel,
  Forall (fun d => 0 <= d < base) ds -> ds <> [] -> (hd 0 ds = 0 -> ds = [0]) ->
  zlen a + zlen b = 32 -> zlen ds <= zlen a -> (length ds <= fuel)%nat ->
  exists a', put_digits fuel digit base (value base ds) (a ++ b) (zlen b) =
    Ok (a' ++ map digit ds ++ b, zlen ds + zlen b) /\ zlen a' + zlen ds + zlen b = 32.
Proof.
  intro Hb. induction ds as [|d ds IH] using rev_ind; intros a b fuel Hf Hne Hh Hlen Hle Hfu; [easy|].
  apply Forall_app in Hf as [Hf Hd]. inversion Hd as [|? ? Hd' _]; subst.
  rewrite app_length in Hfu. cbn [length] in Hfu. rewrite zlen_app in Hle. change (zlen [d]) with 1 in Hle.
  destruct fuel as [|fuel]; [lia|]. cbn [put_digits].
  destruct (exists_last (l := a)) as (a0 & x & ->); [intros ->; rewrite (@zlen_nil Z) in Hle; pose proof (zlen_nonneg ds); lia|].
  rewrite zlen_app in Hlen, Hle. change (zlen [x]) with 1 in Hlen, Hle.
  rewrite value_snoc.
  assert (Em : (base * value base ds + d) mod base = d)
    by (rewrite Z.add_comm, Z.mul_comm, Z.mod_add by lia; apply Z.mod_small; lia).
  assert (Ed : (base * value base ds + d) / base = value base ds)
    by (rewrite Z.add_comm, Z.mul_comm, Z.div_add by lia; rewrite Z.div_small; lia).
  rewrite Em, Ed. rewrite <- app_assoc. cbn [app].
  replace (31 - zlen b) with (zlen a0) by lia. rewrite zput_mid. cbn [bind].
  destruct (Z.eqb_spec (value base ds) 0) as [E|E].
  - assert (ds = []) as ->.
    { destruct ds as [|e ds]; [reflexivity|]. destruct (Z.eq_dec e 0) as [->|He].
      - specialize (Hh eq_refl). destruct ds; discriminate Hh.
      - pose proof (value_lower base (e :: ds) Hb Hf ltac:(easy) He).
        assert (0 < base ^ (zlen (e :: ds) - 1)) by (apply Z.pow_pos_nonneg; [lia|rewrite zlen_cons; pose proof (zlen_nonneg ds); lia]). lia. }
    exists a0. cbn [app map]. rewrite zlen_cons, (@zlen_nil Z). split; [do 2 f_equal; lia|lia].
  - assert (Hne' : ds <> []) by (intros ->; apply E; reflexivity).
    assert (Hh' : hd 0 ds = 0 -> ds = [0]).
    { destruct ds as [|e ds]; [easy|]. cbn. intros ->. specialize (Hh eq_refl). destruct ds; discriminate Hh. }
    destruct (IH a0 (digit d :: b) fuel Hf Hne' Hh') as (a' & Ea & La); [rewrite zlen_cons; lia|lia|lia|].
    rewrite zlen_cons in Ea, La. replace (zlen b + 1) with (1 + zlen b) by lia.
    replace (1 + zlen b) with (zlen b + 1) in * by lia. 
    exists a'. rewrite Ea. rewrite map_app, <- app_assoc, zlen_app. cbn [map app]. change (zlen [d]) with 1.
    split; [do 2 f_equal; lia|lia].
Qed.
Lemma map_ext_range (f g : Z -> Z) n ds : (forall d, 0 <= d < n -> f d = g d) -> Forall (fun d => 0 <= d < n) ds -> map f ds = map g ds.
Proof. intros H Hf. induction Hf as [|d ds Hd Hf IH]; cbn; [reflexivity|]. now rewrite H, IH. Qed.
Lemma small_cases (P : Z -> Prop) n : (forall k, (k < n)%nat -> P (Z.of_nat k)) -> forall d, 0 <= d < Z.of_nat n -> P d.
Proof. intros H d Hd. rewrite <- (Z2Nat.id d) by lia. apply H. lia. Qed.
Lemma hex_ok d : 0 <= d < 16 -> hex_digit d = digit_char d.
Proof. revert d. apply (small_cases _ 16). intros k Hk. do 16 (destruct k as [|k]; [reflexivity|]). lia. Qed.
Lemma dec_ok d : 0 <= d < 10 -> dec_digit d = digit_char d.
Proof. revert d. apply (small_cases _ 10). intros k Hk. do 10 (destruct k as [|k]; [reflexivity|]). lia. Qed.
Lemma numeral_put digit base n k t junk : 2 <= base -> (forall d, 0 <= d < base -> digit d = digit_char d) ->
  numeral base n t -> 0 < k <= 32 -> n < base ^ k -> zlen junk = 32 ->
  exists a', put_digits 64 digit base n junk 0 = Ok (a' ++ t, zlen t) /\ zlen a' + zlen t = 32 /\ zlen t <= k.
Proof.
  intros Hb Hdig (ds & -> & Hf & Hv & Hne & Hh) Hk Hn Hj.
  pose proof (numeral_len base n k ds Hb ltac:(lia) Hn Hf Hv Hne Hh) as Hl.
  destruct (put_digits_ok digit base Hb ds junk [] 64 Hf Hne Hh) as (a' & E & L); rewrite ?(@zlen_nil Z), ?Z.add_0_r in *; try lia.
  { unfold zlen in Hl. lia. }
  rewrite Hv, app_nil_r in E. change (zlen (@nil Z)) with 0 in E. rewrite E. exists a'.
  rewrite app_nil_r, (map_ext_range _ _ _ _ Hdig Hf).
  assert (El : zlen (map digit_char ds) = zlen ds) by (unfold zlen; now rewrite map_length).
  rewrite El. split; [reflexivity|lia].
Qed.
Lemma text_ok (a t : list Z) : zlen a + zlen t = 32 -> digits_text (a ++ t) (zlen t) = Ok t.
Proof.
  intro H. unfold digits_text. replace (32 - zlen t) with (zlen a) by lia.
  pose proof (bytes_mid a t []) as E. now rewrite app_nil_r in E.
Qed.
Lemma put_front (a t : list Z) x : zlen a + zlen t = 32 -> zlen t < 32 ->
  exists a', zput (a ++ t) (31 - zlen t) x = Ok (a' ++ x :: t) /\ zlen a' + zlen (x :: t) = 32.
Proof.
  intros H Ht. destruct (exists_last (l := a)) as (a0 & y & ->); [intros ->; rewrite (@zlen_nil Z) in H; lia|].
  rewrite zlen_app in H. change (zlen [y]) with 1 in H. exists a0. rewrite <- app_assoc. cbn [app].
  replace (31 - zlen t) with (zlen a0) by lia. rewrite zput_mid, zlen_cons. split; [reflexivity|lia].
Qed.
Lemma bits_range w : 1 <= w <= 3 -> bits w = 32 \/ bits w = 64.
Proof. unfold bits. destruct (w =? 1); auto. Qed.
Lemma conv_u junk w v d a : zlen junk = 32 -> 1 <= w <= 3 -> 0 <= v < 2 ^ bits w -> numeral 10 v d ->
  conv_int junk w 117 (AInt w v :: a) = Ok (Some (d, a)).
Proof.
  intros Hj Hw Hv Hd. unfold conv_int. cbn [Z.eqb Pos.eqb]. unfold get_uint.
  rewrite Z.eqb_refl, (proj2 (Z.leb_le 0 v)), (proj2 (Z.ltb_lt v _)) by lia. cbn [andb bind].
  assert (Hv' : v < 10 ^ 20) by (destruct (bits_range w Hw) as [E|E]; rewrite E in Hv; lia).
  destruct (numeral_put dec_digit 10 v 20 d junk ltac:(lia) dec_ok Hd ltac:(lia) Hv' Hj) as (a' & E & L & _).
  rewrite E. cbn [bind]. rewrite (text_ok a' d L). reflexivity.
Qed.
Lemma conv_d junk w v d a : zlen junk = 32 -> 1 <= w <= 3 -> 0 <= v < 2 ^ (bits w - 1) -> numeral 10 v d ->
  conv_int junk w 100 (AInt w v :: a) = Ok (Some (d, a)).
Proof.
  intros Hj Hw Hv Hd. unfold conv_int. cbn [Z.eqb Pos.eqb]. unfold get_int.
  rewrite Z.eqb_refl, (proj2 (Z.leb_le _ v)), (proj2 (Z.ltb_lt v _)) by lia. cbn [andb bind].
  assert (Hv' : v < 10 ^ 20) by (destruct (bits_range w Hw) as [E|E]; rewrite E in Hv; lia).
  rewrite (proj2 (Z.ltb_ge v 0)) by lia. cbn [bind].
  destruct (numeral_put dec_digit 10 v 20 d junk ltac:(lia) dec_ok Hd ltac:(lia) Hv' Hj) as (a' & E & L & _).
  rewrite E. cbn [bind]. rewrite (text_ok a' d L). reflexivity.
Qed.
Lemma conv_neg junk w v d a : zlen junk = 32 -> 1 <= w <= 3 -> - 2 ^ (bits w - 1) <= v < 0 -> v <> - 2 ^ 63 ->
  numeral 10 (- v) d -> conv_int junk w 100 (AInt w v :: a) = Ok (Some (45 :: d, a)).
Proof.
  intros Hj Hw Hv Hm Hd. unfold conv_int. cbn [Z.eqb Pos.eqb]. unfold get_int.
  rewrite Z.eqb_refl, (proj2 (Z.leb_le _ v)), (proj2 (Z.ltb_lt v _)) by lia. cbn [andb bind].
  assert (Hv' : - v < 10 ^ 20) by (destruct (bits_range w Hw) as [E|E]; rewrite E in Hv; lia).
  rewrite (proj2 (Z.ltb_lt v 0)) by lia. change INT64_MIN with (- 2 ^ 63). rewrite (proj2 (Z.eqb_neq v _)) by exact Hm. cbn [bind].
  destruct (numeral_put dec_digit 10 (- v) 20 d junk ltac:(lia) dec_ok Hd ltac:(lia) Hv' Hj) as (a' & E & L & L20).
  rewrite E. cbn [bind]. destruct (put_front a' d 45 L ltac:(lia)) as (a2 & E2 & L2). rewrite E2. cbn [bind].
  replace (zlen d + 1) with (zlen (45 :: d)) by (rewrite zlen_cons; lia). rewrite (text_ok a2 _ L2). reflexivity.
Qed.
Lemma conv_p junk v d a : zlen junk = 32 -> 0 <= v < 2 ^ 64 -> numeral 16 v d ->
  conv_ptr junk (APtr v :: a) = Ok (48 :: 120 :: d, a).
Proof.
  intros Hj Hv Hd. unfold conv_ptr. cbn [get_ptr bind].
  destruct (numeral_put hex_digit 16 v 16 d junk ltac:(lia) hex_ok Hd ltac:(lia) ltac:(lia) Hj) as (a' & E & L & L20).
  rewrite E. cbn [bind]. destruct (put_front a' d 120 L ltac:(lia)) as (a2 & E2 & L2). rewrite E2. cbn [bind].
  replace (zlen d + 1) with (zlen (120 :: d)) by (rewrite zlen_cons; lia).
  destruct (put_front a2 (120 :: d) 48 L2 ltac:(rewrite zlen_cons; lia)) as (a3 & E3 & L3). rewrite E3. cbn [bind].
  replace (zlen d + 2) with (zlen (48 :: 120 :: d)) by (rewrite !zlen_cons; lia). rewrite (text_ok a3 _ L3). reflexivity.
Qed.

(** One directive. *)
Lemma str_arg s tl : nonul s -> (let* n := strlen (s ++ 0 :: tl) in bytes_at (s ++ 0 :: tl) 0 n) = Ok s.
Proof. intro H. rewrite (strlen_ok s tl H). cbn [bind]. exact (bytes_mid [] s (0 :: tl)). Qed.
Lemma directive_int junk w c a s a' g : 1 <= w <= 3 -> c = 117 \/ c = 100 ->
  conv_int junk w c a = Ok (Some (s, a')) -> directive junk (modifier w ++ c :: g) a = Ok (Some (s, g, a')).
Proof.
  intros Hw Hc E.
  transitivity (let* r := conv_int junk w c a in
    match r with None => Ok None | Some (s, args) => Ok (Some (s, g, args)) end); [|rewrite E; reflexivity].
  assert (w = 1 \/ w = 2 \/ w = 3) as [-> | [-> | ->]] by lia; destruct Hc as [-> | ->]; reflexivity.
Qed.
(** One step of the loop: the text [s] of a chunk or directive. *)
Lemma copy_ok w rest cap s : 0 <= cap < zlen rest ->
  let len := if zlen s <? cap then zlen s else cap in
  let x := firstn (Z.to_nat cap) s in
  zlen x = len /\ bytes_at s 0 len = Ok x /\ memcpy (w ++ rest) (zlen w) x = Ok (w ++ overwrite rest x).
Proof.
  intros Hc len x. pose proof (zlen_nonneg s) as Hs.
  assert (El : zlen x = len).
  { unfold x, len, zlen in *. rewrite firstn_length. destruct (Z.ltb_spec (Z.of_nat (length s)) cap); lia. }
  split; [exact El|]. split.
  - rewrite bytes_at_ok; [|lia| |]; unfold len; destruct (Z.ltb_spec (zlen s) cap); try lia.
    + unfold zslice, x. cbn [Z.to_nat skipn]. f_equal. rewrite !firstn_all2; [reflexivity| |]; unfold zlen in *; lia.
    + reflexivity.
  - rewrite <- (firstn_skipn (length x) rest) at 1. rewrite memcpy_mid; [unfold overwrite; reflexivity|].
    unfold zlen. rewrite firstn_length. assert (zlen x <= cap) by (rewrite El; unfold len; destruct (zlen s <? cap) eqn:?; lia).
    unfold zlen in *. lia.
Qed.
Lemma plain_run f a t a' : renders f a t a' -> exists p f2 t2, f = p ++ f2 /\ t = p ++ t2 /\
  Forall (fun c => negb (c =? 0) && negb (c =? 37) = true) p /\ renders f2 a t2 a' /\ (f2 = [] \/ hd 0 f2 = 37).
Proof.
  induction 1; try (eexists [], _, _; split; [reflexivity|]; split; [reflexivity|]; split; [constructor|];
    split; [now constructor|]; cbn; auto; fail).
  destruct IHrenders as (p & f2 & t2 & -> & -> & Hp & Hr & Hh). exists (c :: p), f2, t2. split; [reflexivity|].
  split; [reflexivity|]. split; [constructor; [lia|assumption]|]. auto.
Qed.
Lemma firstn_cap (s t : list Z) cap : 0 <= cap ->
  firstn (Z.to_nat cap) (s ++ t) = firstn (Z.to_nat cap) s ++
    firstn (Z.to_nat (cap - (if zlen s <? cap then zlen s else cap))) t.
Proof.
  intro Hc. rewrite firstn_app. f_equal. unfold zlen. destruct (Z.ltb_spec (Z.of_nat (length s)) cap); f_equal; lia.
Qed.
Lemma overwrite_app rest x y : overwrite rest (x ++ y) = x ++ overwrite (skipn (length x) rest) y.
Proof. unfold overwrite. rewrite app_length, <- app_assoc, skipn_skipn. now rewrite (Nat.add_comm (length x)). Qed.
Lemma zlen_firstn_cap (s : list Z) cap : 0 <= cap -> zlen (firstn (Z.to_nat cap) s) = if zlen s <? cap then zlen s else cap.
Proof. intro. unfold zlen. rewrite firstn_length. destruct (Z.ltb_spec (Z.of_nat (length s)) cap); lia. Qed.

(** The state of the loop after the text [t]. *)
Lemma loop_step fuel junk w rest cap l args s r args' c :
  zload l 0 = Ok c -> c <> 0 ->
  (if c =? 37 then directive junk (skipn 1 l) args
   else let* (s, r) := span (fun c => negb (c =? 0) && negb (c =? 37)) l in Ok (Some (s, r, args))) = Ok (Some (s, r, args')) ->
  0 <= cap < zlen rest ->
  let x := firstn (Z.to_nat cap) s in
  vsn_loop (S fuel) junk (w ++ rest) (zlen w) cap l args =
  vsn_loop fuel junk ((w ++ x) ++ skipn (length x) rest) (zlen (w ++ x)) (cap - zlen x) r args'.
Proof.
  intros Hl Hc Hd Hcap x. cbn [vsn_loop]. rewrite Hl. cbn [bind]. rewrite (proj2 (Z.eqb_neq c 0) Hc), Hd. cbn [bind].
  cbv zeta. destruct (copy_ok w rest cap s Hcap) as (E1 & E2 & E3). cbv zeta in E1, E2, E3. fold x in E1, E2, E3.
  rewrite E2. cbn [bind]. rewrite E3. cbn [bind]. rewrite E1, zlen_app, E1. unfold overwrite. now rewrite app_assoc.
Qed.
Lemma dir_of junk f a t a' g : zlen junk = 32 -> renders f a t a' -> hd 0 f = 37 ->
  exists s f2 t2 a2, t = s ++ t2 /\ renders f2 a2 t2 a' /\ (length f2 < length f)%nat /\
    directive junk (skipn 1 (f ++ g)) a = Ok (Some (s, f2 ++ g, a2)).
Proof.
  intros Hj H Hh. inversion H; subst; cbn [hd] in Hh; try easy; cbn [app skipn].
  - exists [37], f0, t0, a. repeat split; auto. cbn; lia.
  - exists s, f0, t0, a0. repeat split; auto; [cbn; lia|]. unfold directive. cbn [zload zget].
    change (zload (115 :: f0 ++ g) 0) with (Ok 115). cbn [bind Z.eqb Pos.eqb get_str].
    rewrite (strlen_ok s tl) by assumption. cbn [bind]. rewrite (bytes_mid [] s (0 :: tl) : bytes_at (s ++ 0 :: tl) 0 (zlen s) = _). reflexivity.
  - exists [40; 110; 117; 108; 108; 41], f0, t0, a0. repeat split; auto. cbn; lia.
  - exists d, f0, t0, a0. repeat split; auto; [cbn [length]; rewrite app_length; cbn [length]; lia|].
    rewrite <- app_assoc. cbn [app]. apply directive_int; auto. now apply conv_u.
  - exists d, f0, t0, a0. repeat split; auto; [cbn [length]; rewrite app_length; cbn [length]; lia|].
    rewrite <- app_assoc. cbn [app]. apply directive_int; auto. now apply conv_d.
  - exists (45 :: d), f0, t0, a0. repeat split; auto; [cbn [length]; rewrite app_length; cbn [length]; lia|].
    rewrite <- app_assoc. cbn [app]. apply directive_int; auto. now apply conv_neg.
  - exists (48 :: 120 :: d), f0, t0, a0. repeat split; auto; [cbn; lia|]. unfold directive.
    change (zload (112 :: f0 ++ g) 0) with (Ok 112). cbn [bind Z.eqb Pos.eqb orb].
    rewrite (conv_p junk v d a0) by assumption. reflexivity.
Qed.
Lemma loop_renders junk : zlen junk = 32 -> forall n f a t a', (length f <= n)%nat -> renders f a t a' ->
  forall g c gl fuel w rest cap, g = c :: gl -> c = 0 \/ c = 37 -> (length f < fuel)%nat -> 0 <= cap < zlen rest ->
  let x := firstn (Z.to_nat cap) t in
  exists k, (fuel - length f <= k)%nat /\
  vsn_loop fuel junk (w ++ rest) (zlen w) cap (f ++ g) a =
  vsn_loop k junk ((w ++ x) ++ skipn (length x) rest) (zlen (w ++ x)) (cap - zlen x) g a'.
Proof.
  intros Hj. induction n as [|n IH]; intros f a t a' Hn Hr g c gl fuel w rest cap Hg Hc Hfu Hcap x.
  - destruct f; [|cbn in Hn; lia]. inversion Hr; subst. exists fuel. split; [cbn; lia|].
    unfold x. rewrite firstn_nil, app_nil_r, (@zlen_nil Z), Z.sub_0_r. reflexivity.
  - assert (Go : forall s f2 t2 a2 h, t = s ++ t2 -> renders f2 a2 t2 a' -> (length f2 < length f)%nat ->
      zload (f ++ g) 0 = Ok h -> h <> 0 ->
      (if h =? 37 then directive junk (skipn 1 (f ++ g)) a
       else let* (s, r) := span (fun c => negb (c =? 0) && negb (c =? 37)) (f ++ g) in Ok (Some (s, r, a))) = Ok (Some (s, f2 ++ g, a2)) ->
      exists k, (fuel - length f <= k)%nat /\
      vsn_loop fuel junk (w ++ rest) (zlen w) cap (f ++ g) a =
      vsn_loop k junk ((w ++ x) ++ skipn (length x) rest) (zlen (w ++ x)) (cap - zlen x) g a').
    { intros s f2 t2 a2 h Et Hr2 Hlt Hl Hh Hd. destruct fuel as [|fuel]; [lia|].
      rewrite (loop_step fuel junk w rest cap (f ++ g) a s (f2 ++ g) a2 h Hl Hh Hd Hcap).
      set (y := firstn (Z.to_nat cap) s).
      assert (Ey : zlen y = if zlen s <? cap then zlen s else cap) by (apply zlen_firstn_cap; lia).
      assert (Hy : 0 <= zlen y <= cap) by (rewrite Ey; pose proof (zlen_nonneg s); destruct (Z.ltb_spec (zlen s) cap); lia).
      assert (Hcap2 : 0 <= cap - zlen y < zlen (skipn (length y) rest)).
      { unfold zlen in *. rewrite skipn_length. lia. }
      destruct (IH f2 a2 t2 a' ltac:(lia) Hr2 g c gl fuel (w ++ y) (skipn (length y) rest) (cap - zlen y) Hg Hc ltac:(lia) Hcap2) as (k & Hk & E).
      exists k. split; [lia|]. rewrite E.
      assert (Ex : x = y ++ firstn (Z.to_nat (cap - zlen y)) t2) by (unfold x; rewrite Et, firstn_cap, <- Ey by lia; reflexivity).
      rewrite Ex. rewrite !app_assoc, app_length, skipn_skipn, !zlen_app.
      f_equal; [f_equal; f_equal; lia | lia]. }
    destruct (plain_run f a t a' Hr) as (p & f2 & t2 & Ef & Et & Hp & Hr2 & Hh2).
    destruct p as [|h p].
    + cbn [app] in Ef, Et. subst f2 t2. destruct Hh2 as [-> | Hh2].
      * inversion Hr; subst. exists fuel. split; [cbn; lia|].
        unfold x. rewrite firstn_nil, app_nil_r, (@zlen_nil Z), Z.sub_0_r. reflexivity.
      * destruct (dir_of junk f a t a' g Hj Hr Hh2) as (s & f3 & t3 & a3 & E1 & E2 & E3 & E4).
        destruct f as [|h f]; [discriminate|]. cbn [hd] in Hh2. subst h.
        apply (Go s f3 t3 a3 37); auto; try easy.
    + inversion Hp as [|? ? Hh Hp']; subst.
      apply (Go (h :: p) f2 t2 a h); auto.
      * rewrite app_length. cbn [length]. lia.
      * lia.
      * rewrite (proj2 (Z.eqb_neq h 37)) by lia. rewrite <- app_assoc.
        destruct f2 as [|h2 f2].
        -- cbn [app]. change (h :: p ++ c :: gl) with ((h :: p) ++ c :: gl). rewrite span_ok by (auto; lia). reflexivity.
        -- destruct Hh2 as [Hh2|Hh2]; [discriminate|]. cbn [hd] in Hh2. subst h2.
           change ((h :: p) ++ (37 :: f2) ++ c :: gl) with ((h :: p) ++ 37 :: (f2 ++ c :: gl)).
           rewrite span_ok by auto. reflexivity.
Qed.

(** The function. *)
Lemma vsn_ok junk buf sz f tl a t a' : zlen junk = 32 -> 1 <= sz <= zlen buf ->
  renders f a t a' -> let out := firstn (Z.to_nat (sz - 1)) t in
  sig_vsnprintf junk buf sz (f ++ 0 :: tl) a = Ok (overwrite buf (out ++ [0]), i32 (zlen out)).
Proof.
  intros Hj Hs Hr out. unfold sig_vsnprintf. rewrite (proj2 (Z.eqb_neq sz 0)) by lia.
  destruct (loop_renders junk Hj (length f) f a t a' ltac:(lia) Hr (0 :: tl) 0 tl (S (length (f ++ 0 :: tl))) [] buf (sz - 1)
     eq_refl (or_introl eq_refl)) as (k & Hk & E); [rewrite app_length; cbn [length]; lia|lia|].
  cbn [app] in E. change (zlen (@nil Z)) with 0 in E. rewrite E. fold out.
  rewrite app_length in Hk. cbn [length] in Hk. destruct k as [|k]; [lia|]. cbn [vsn_loop].
  change (zload (0 :: tl) 0) with (Ok 0). cbn [bind Z.eqb].
  assert (Ho : 0 <= zlen out <= sz - 1) by (unfold out; rewrite zlen_firstn_cap by lia; pose proof (zlen_nonneg t); destruct (Z.ltb_spec (zlen t) (sz - 1)); lia).
  destruct (skipn (length out) buf) as [|y r] eqn:Er.
  { apply (f_equal (@length Z)) in Er. rewrite skipn_length in Er. cbn in Er. unfold zlen in *. lia. }
  rewrite zput_mid. cbn [bind]. rewrite overwrite_app, Er. reflexivity.
Qed.
Lemma bad_directive junk l tl a : nonul l -> malformed l -> directive junk (l ++ 0 :: tl) a = Ok None.
Proof.
  intros Hn Hm. unfold directive.
  assert (D : forall d r, is_directive d -> l = d ++ r -> False) by (intros d r Hd E; exact (Hm d r Hd E)).
  destruct l as [|c l]; [reflexivity|].
  change (zload ((c :: l) ++ 0 :: tl) 0) with (Ok c). cbn [bind].
  assert (I : forall w k r, 1 <= w <= 3 -> k = 117 \/ k = 100 -> c :: l = modifier w ++ k :: r -> False).
  { intros w k r Hw Hk E. apply (D (modifier w ++ [k]) r); [|now rewrite <- app_assoc].
    right; right; right. exists w, k. auto. }
  destruct (Z.eqb_spec c 115) as [->|H1]; [destruct (D [115] l); [right; left; reflexivity|reflexivity]|].
  destruct (Z.eqb_spec c 100) as [->|H2]; [destruct (I 1 100 l); auto; lia|].
  destruct (Z.eqb_spec c 117) as [->|H3]; [destruct (I 1 117 l); auto; lia|].
  destruct (Z.eqb_spec c 108) as [->|H4].
  - cbn [orb]. destruct l as [|d l]; [reflexivity|].
    change (zload ((108 :: d :: l) ++ 0 :: tl) 1) with (Ok d). cbn [bind].
    destruct (Z.eqb_spec d 108) as [->|H5].
    + destruct l as [|e l]; [reflexivity|]. change (zload ((108 :: 108 :: e :: l) ++ 0 :: tl) 2) with (Ok e). cbn [bind].
      unfold conv_int. destruct (Z.eqb_spec e 117) as [->|]; [destruct (I 3 117 l); auto; lia|].
      destruct (Z.eqb_spec e 100) as [->|]; [destruct (I 3 100 l); auto; lia|]. reflexivity.
    + change (zload ((108 :: d :: l) ++ 0 :: tl) 1) with (Ok d). cbn [bind].
      unfold conv_int. destruct (Z.eqb_spec d 117) as [->|]; [destruct (I 2 117 l); auto; lia|].
      destruct (Z.eqb_spec d 100) as [->|]; [destruct (I 2 100 l); auto; lia|]. reflexivity.
  - cbn [orb]. destruct (Z.eqb_spec c 112) as [->|]; [destruct (D [112] l); [right; right; left; reflexivity|reflexivity]|].
    destruct (Z.eqb_spec c 37) as [->|]; [destruct (D [37] l); [left; reflexivity|reflexivity]|]. reflexivity.
Qed.
Lemma vsn_bad junk buf sz f l tl a t a' : zlen junk = 32 -> 1 <= sz <= zlen buf ->
  renders f a t a' -> nonul l -> malformed l ->
  sig_vsnprintf junk buf sz (f ++ 37 :: l ++ 0 :: tl) a = Ok (overwrite buf (firstn (Z.to_nat (sz - 1)) t), -1).
Proof.
  intros Hj Hs Hr Hn Hm. unfold sig_vsnprintf. rewrite (proj2 (Z.eqb_neq sz 0)) by lia. set (g := 37 :: l ++ 0 :: tl).
  destruct (loop_renders junk Hj (length f) f a t a' ltac:(lia) Hr g 37 (l ++ 0 :: tl) (S (length (f ++ g))) [] buf (sz - 1)
     eq_refl (or_intror eq_refl)) as (k & Hk & E); [rewrite app_length; unfold g; cbn [length]; lia|lia|].
  cbn [app] in E. change (zlen (@nil Z)) with 0 in E. rewrite E.
  rewrite app_length in Hk. destruct k as [|k]; [unfold g in Hk; cbn [length] in Hk; lia|]. cbn [vsn_loop].
  unfold g. change (zload (37 :: l ++ 0 :: tl) 0) with (Ok 37). cbn [bind Z.eqb Pos.eqb skipn].
  rewrite bad_directive by assumption. cbn [bind]. reflexivity.
Qed.

(** The log function and the shutdown handler. *)
Lemma zlen_overwrite buf t : zlen t <= zlen buf -> zlen (overwrite buf t) = zlen buf.
Proof. intro H. unfold overwrite, zlen in *. rewrite app_length, skipn_length. lia. Qed.
Lemma log_ok junk buf fd sz f tl a t a' : zlen junk = 32 -> sz <= zlen buf -> zlen t < sz -> sz <= 2 ^ 31 ->
  renders f a t a' -> sig_log junk buf fd sz (f ++ 0 :: tl) a = Ok (overwrite buf (t ++ [0]), [Write fd t]).
Proof.
  intros Hj Hs Ht Hs2 Hr. pose proof (zlen_nonneg t). unfold sig_log.
  rewrite (vsn_ok junk buf sz f tl a t a' Hj ltac:(lia) Hr).
  rewrite firstn_all2 by (unfold zlen in *; lia). cbn [bind]. rewrite i32_small by lia. rewrite u64_small by lia.
  rewrite zlen_overwrite by (rewrite zlen_app; change (zlen [0]) with 1; lia).
  rewrite (proj2 (Z.leb_le _ _)) by lia. do 4 f_equal. unfold overwrite. rewrite <- app_assoc.
  replace (Z.to_nat (zlen t)) with (length t) by (unfold zlen; lia). rewrite firstn_app, Nat.sub_diag, firstn_all, firstn_O.
  apply app_nil_r.
Qed.
Lemma log_cut junk buf fd sz f tl a t a' : zlen junk = 32 -> 1 <= sz <= zlen buf -> sz <= 2 ^ 31 ->
  renders f a t a' -> let out := firstn (Z.to_nat (sz - 1)) t in
  sig_log junk buf fd sz (f ++ 0 :: tl) a = Ok (overwrite buf (out ++ [0]), [Write fd out]).
Proof.
  intros Hj Hs Hs2 Hr out. unfold sig_log. rewrite (vsn_ok junk buf sz f tl a t a' Hj ltac:(lia) Hr). fold out. cbn [bind].
  assert (Ho : 0 <= zlen out <= sz - 1) by (unfold out; rewrite zlen_firstn_cap by lia; pose proof (zlen_nonneg t); destruct (Z.ltb_spec (zlen t) (sz - 1)); lia).
  rewrite i32_small by lia. rewrite u64_small by lia.
  rewrite zlen_overwrite by (rewrite zlen_app; change (zlen [0]) with 1; lia).
  rewrite (proj2 (Z.leb_le _ _)) by lia. do 4 f_equal. unfold overwrite. rewrite <- app_assoc.
  replace (Z.to_nat (zlen out)) with (length out) by (unfold zlen; lia). rewrite firstn_app, Nat.sub_diag, firstn_all, firstn_O.
  apply app_nil_r.
Qed.
Lemma renders_plain p : Forall (fun c => c <> 37 /\ c <> 0) p -> forall f a t a', renders f a t a' -> renders (p ++ f) a (p ++ t) a'.
Proof. intros Hp. induction Hp as [|c p [H1 H2] Hp IH]; intros; cbn [app]; [assumption|]. apply r_char; auto. Qed.
Lemma numeral_zlen base n k t : 2 <= base -> 0 < k -> n < base ^ k -> numeral base n t -> zlen t <= k.
Proof.
  intros Hb Hk Hn (ds & -> & Hf & Hv & Hne & Hh). pose proof (numeral_len base n k ds Hb Hk Hn Hf Hv Hne Hh).
  unfold zlen in *. now rewrite map_length.
Qed.
Lemma numeral_exists base : 2 <= base -> forall n, 0 <= n -> exists t, numeral base n t.
Proof.
  intros Hb n Hn.
  enough (H : forall k, forall n, 0 <= n < Z.of_nat k -> exists ds, Forall (fun d => 0 <= d < base) ds /\
     value base ds = n /\ ds <> [] /\ (hd 0 ds = 0 -> ds = [0])).
  { destruct (H (S (Z.to_nat n)) n ltac:(lia)) as (ds & H'). exists (map digit_char ds), ds. auto. }
  clear n Hn. induction k as [|k IH]; intros n Hn; [lia|].
  destruct (Z.lt_ge_cases n base).
  - exists [n]. split; [constructor; [lia|constructor]|]. split; [cbn; lia|]. split; [easy|]. cbn. now intros ->.
  - assert (n / base < n) by (apply Z.div_lt; lia). assert (0 < n / base) by (apply Z.div_str_pos; lia).
    destruct (IH (n / base) ltac:(lia)) as (ds & Hf & Hv & Hne & Hh). exists (ds ++ [n mod base]).
    pose proof (Z.mod_pos_bound n base ltac:(lia)).
    split; [apply Forall_app; split; [assumption|]; constructor; [lia|constructor]|].
    split; [rewrite value_snoc, Hv; symmetry; apply Z.div_mod; lia|]. split; [destruct ds; easy|].
    destruct ds as [|e ds]; [easy|]. cbn. intros ->. specialize (Hh eq_refl). injection Hh as ->. cbn in Hv. lia.
Qed.

Ltac plain := repeat (constructor; [lia|]); constructor.
Lemma recv_ok sig name d : 0 < sig < 2 ^ 31 -> nonul name -> numeral 10 sig d ->
  renders (firstn 17 T_recv) [AStr (Some (name ++ [0])); AInt 1 sig]
    ([82; 101; 99; 118; 32; 58; 32] ++ name ++ [44; 32; 40] ++ d ++ [41; 32; 10]) [].
Proof.
  intros Hs Hn Hd.
  change (firstn 17 T_recv) with ([82; 101; 99; 118; 32; 58; 32] ++ 37 :: 115 :: [44; 32; 40] ++ 37 :: modifier 1 ++ 100 :: [41; 32; 10] ++ []).
  apply renders_plain; [plain|]. apply r_string; [assumption|]. apply renders_plain; [plain|].
  apply r_signed; [lia|cbn; lia|assumption|]. rewrite <- (app_nil_r [41; 32; 10]) at 2. apply renders_plain; [plain|]. constructor.
Qed.
Lemma const_ok junk buf fd t : zlen junk = 32 -> zlen buf = 4096 -> zlen t < 4096 -> Forall (fun c => c <> 37 /\ c <> 0) t ->
  sig_log junk buf fd 4096 (t ++ [0]) [] = Ok (overwrite buf (t ++ [0]), [Write fd t]).
Proof.
  intros Hj Hb Ht Hf. apply (log_ok junk buf fd 4096 t [] [] t []); try lia.
  rewrite <- (app_nil_r t). apply renders_plain; [assumption|constructor].
Qed.
