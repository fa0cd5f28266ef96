(** Proofs about the string model. *)
From Verif Require Import Base CStr StrModel StrSpec.
From Coq Require Import ZifyBool.

(** ** Library functions *)
Lemma nonul_cons c l : nonul (c :: l) <-> c <> 0 /\ nonul l.
Proof. unfold nonul. cbn. split; [intro H; split; intro; apply H; auto|intros [H1 H2] [H|H]; auto]. Qed.
Lemma nonul_app a b : nonul (a ++ b) <-> nonul a /\ nonul b.
Proof. unfold nonul. rewrite in_app_iff. tauto. Qed.
Lemma one_of_In set c : one_of set c = true <-> In c set.
Proof. unfold one_of. rewrite existsb_exists. split; [intros (x & H1 & H2); assert (c = x) by lia; congruence|]. intro H. exists c. split; [exact H|lia]. Qed.
Lemma one_of_not set c : one_of set c = false <-> ~ In c set.
Proof. rewrite <- one_of_In. destruct (one_of set c); split; congruence. Qed.

Lemma strlen_ok c tl : nonul c -> strlen (c ++ 0 :: tl) = Ok (zlen c).
Proof.
  induction c as [|x c IH]; intro H; cbn [app strlen]; [reflexivity|]. apply nonul_cons in H as [H1 H2].
  destruct (Z.eqb_spec x 0); [contradiction|]. rewrite IH by exact H2. cbn [bind]. rewrite zlen_cons. f_equal; lia.
Qed.
Lemma before_nul_split t : exists tl, t ++ [0] = before_nul t ++ 0 :: tl /\ nonul (before_nul t).
Proof.
  induction t as [|c t IH]; cbn [before_nul app]; [exists []; split; [reflexivity|intros []]|].
  destruct (Z.eqb_spec c 0) as [->|Hc]; [exists (t ++ [0]); split; [reflexivity|intros []]|].
  destruct IH as (tl & -> & H). exists tl. split; [reflexivity|]. apply nonul_cons. auto.
Qed.
Lemma before_nul_id t : nonul t -> before_nul t = t.
Proof.
  induction t as [|c t IH]; intro H; [reflexivity|]. apply nonul_cons in H as [H1 H2]. cbn.
  destruct (Z.eqb_spec c 0); [contradiction|]. now rewrite IH.
Qed.
Lemma before_nul_prefix t : exists tl, t = before_nul t ++ tl.
Proof.
  induction t as [|c t [tl IH]]; cbn; [exists []; reflexivity|]. destruct (c =? 0); [eexists; reflexivity|].
  exists tl. cbn. now rewrite <- IH.
Qed.

Lemma malloc_ok n a : 0 <= n -> match malloc n a with None => a = None | Some m => zlen m = n /\ a <> None end.
Proof.
  intro H. unfold malloc. destruct a as [junk|]; cbn; [|reflexivity]. split; [|discriminate].
  rewrite zlen_firstn, zlen_app, zlen_repeat. pose proof (zlen_nonneg junk). lia.
Qed.
Lemma memcpy_ok m p xs : 0 <= p -> p + zlen xs <= zlen m ->
  memcpy m p xs = Ok (firstn (Z.to_nat p) m ++ xs ++ skipn (Z.to_nat (p + zlen xs)) m).
Proof. intros H1 H2. unfold memcpy. now replace ((0 <=? p) && (p + zlen xs <=? zlen m)) with true by lia. Qed.
Lemma zset_mid {A} (a c : list A) x y : zset (a ++ x :: c) (zlen a) y = a ++ y :: c.
Proof.
  pose proof (zlen_nonneg a). pose proof (zlen_nonneg c).
  apply zget_ext; [rewrite zlen_zset, !zlen_app, !zlen_cons; lia|]. intros i Hi.
  rewrite zget_zset by (rewrite zlen_app, zlen_cons; lia). rewrite !zget_app, !zget_cons.
  destruct (Z.eqb_spec (zlen a) i) as [<-|]; [now rewrite Z.ltb_irrefl, Z.sub_diag|].
  destruct (Z.ltb_spec i (zlen a)); [reflexivity|]. destruct (Z.eqb_spec (i - zlen a) 0); [lia|reflexivity].
Qed.
Lemma zget_mid {A} (a c : list A) x : zget (a ++ x :: c) (zlen a) = Some x.
Proof. rewrite zget_app, Z.ltb_irrefl, Z.sub_diag. reflexivity. Qed.
Lemma zput_mid {A} (a c : list A) x y : zput (a ++ x :: c) (zlen a) y = Ok (a ++ y :: c).
Proof.
  pose proof (zlen_nonneg a). pose proof (zlen_nonneg c).
  rewrite zput_ok by (rewrite zlen_app, zlen_cons; lia). now rewrite zset_mid.
Qed.
Lemma memcpy_full m xs y : zlen m = zlen xs + 1 -> memcpy m 0 xs = Ok (xs ++ skipn (Z.to_nat (zlen xs)) m) /\
  zput (xs ++ skipn (Z.to_nat (zlen xs)) m) (zlen xs) y = Ok (xs ++ [y]).
Proof.
  intro H. pose proof (zlen_nonneg xs). rewrite memcpy_ok by lia. split; [reflexivity|].
  assert (Hs : exists z, skipn (Z.to_nat (zlen xs)) m = [z]).
  { assert (zlen (skipn (Z.to_nat (zlen xs)) m) = 1) by (rewrite zlen_skipn; lia).
    destruct (skipn _ _) as [|z [|z' l]]; [discriminate|eauto|]. rewrite !zlen_cons in H1. pose proof (zlen_nonneg l). lia. }
  destruct Hs as [z ->]. apply zput_mid.
Qed.
Lemma bytes_at_ok m p n : 0 <= p -> 0 <= n -> p + n <= zlen m -> bytes_at m p n = Ok (zslice m p n).
Proof. intros. unfold bytes_at. now replace ((0 <=? p) && (0 <=? n) && (p + n <=? zlen m)) with true by lia. Qed.
Lemma zslice_mid (a b c : list Z) : zslice (a ++ b ++ c) (zlen a) (zlen b) = b.
Proof.
  unfold zslice. replace (Z.to_nat (zlen a)) with (length a) by (unfold zlen; lia).
  rewrite skipn_app, skipn_all, Nat.sub_diag. cbn [app skipn].
  replace (Z.to_nat (zlen b)) with (length b) by (unfold zlen; lia).
  rewrite firstn_app, firstn_all, Nat.sub_diag. cbn. apply app_nil_r.
Qed.
Lemma bytes_mid (a b c : list Z) : bytes_at (a ++ b ++ c) (zlen a) (zlen b) = Ok b.
Proof.
  pose proof (zlen_nonneg a). pose proof (zlen_nonneg b). pose proof (zlen_nonneg c).
  rewrite bytes_at_ok by (rewrite ?zlen_app; lia). now rewrite zslice_mid.
Qed.
Lemma from_app (a b : list Z) : from (a ++ b) (zlen a) = Ok b.
Proof.
  unfold from. pose proof (zlen_nonneg a). pose proof (zlen_nonneg b). rewrite zlen_app.
  replace ((0 <=? zlen a) && (zlen a <=? zlen a + zlen b)) with true by lia.
  replace (Z.to_nat (zlen a)) with (length a) by (unfold zlen; lia).
  now rewrite skipn_app, skipn_all, Nat.sub_diag.
Qed.
Lemma memcpy_mid (a b c xs : list Z) : zlen xs = zlen b -> memcpy (a ++ b ++ c) (zlen a) xs = Ok (a ++ xs ++ c).
Proof.
  intro H. pose proof (zlen_nonneg a). pose proof (zlen_nonneg b). pose proof (zlen_nonneg c).
  rewrite memcpy_ok by (rewrite ?zlen_app; lia). f_equal.
  replace (Z.to_nat (zlen a)) with (length a) by (unfold zlen; lia).
  rewrite firstn_app, firstn_all, Nat.sub_diag. cbn [firstn]. rewrite app_nil_r. f_equal. f_equal.
  replace (Z.to_nat (zlen a + zlen xs)) with (length (a ++ b)) by (rewrite app_length; unfold zlen in *; lia).
  rewrite app_assoc, skipn_app, skipn_all, Nat.sub_diag. reflexivity.
Qed.

(** ** Creation *)
Lemma block_ok n a : 0 <= n < 2^63 -> match block n a with None => a = None | Some m => zlen m = n + 1 /\ a <> None end.
Proof.
  intro H. unfold block, str_bytes. rewrite u64_small by lia. replace (n + 4 + 1 - 4) with (n + 1) by lia.
  apply malloc_ok. lia.
Qed.

Lemma create_len_ok (c rest : list Z) a : zlen c < 2^32 ->
  str_create_len (Some (c ++ rest)) (zlen c) a =
    Ok (match a with None => None | Some _ => Some (mk_sstr (zlen c) (c ++ [0])) end).
Proof.
  intro H. pose proof (zlen_nonneg c). unfold str_create_len.
  pose proof (block_ok (zlen c) a) as B. destruct (block (zlen c) a) as [m|].
  - destruct B as [B1 B2]; [lia|]. change (c ++ rest) with ([] ++ c ++ rest). change 0 with (@zlen Z []) at 1.
    rewrite bytes_mid. cbn [bind]. destruct (memcpy_full m c 0 B1) as [-> M2]. cbn [bind]. rewrite M2. cbn [bind].
    destruct a; [reflexivity|contradiction].
  - rewrite B by lia. reflexivity.
Qed.

Lemma create_ok p a : nonul p ->
  str_create (Some p) a = Ok (if STR_MAX <? zlen p then None else match a with None => None | Some _ => Some (mk_sstr (zlen p) (p ++ [0])) end).
Proof.
  intro H. unfold str_create. rewrite strlen_ok by exact H. cbn [bind].
  destruct (Z.ltb_spec STR_MAX (zlen p)); [reflexivity|]. unfold STR_MAX in *. pose proof (zlen_nonneg p).
  rewrite u32_small by lia. apply create_len_ok. lia.
Qed.

Lemma create_fmt_ok text a : zlen text < 2^31 ->
  str_create_fmt (Some text) a = Ok (match a with None => None | Some _ => Some (mk_sstr (zlen text) (text ++ [0])) end).
Proof.
  intro H. pose proof (zlen_nonneg text). unfold str_create_fmt. cbv zeta.
  pose proof (block_ok (zlen text) a) as B. destruct (block (zlen text) a) as [m|]; [|rewrite B by lia; reflexivity].
  destruct B as [B1 B2]; [lia|]. rewrite (u32_small (zlen text)) by lia.
  assert (M : memcpy m 0 (text ++ [0]) = Ok (text ++ [0])).
  { pose proof (memcpy_mid [] m [] (text ++ [0])) as M. cbn [app] in M. rewrite !app_nil_r in M. apply M.
    rewrite zlen_app. change (zlen [0]) with 1. lia. }
  destruct (Z.ltb_spec (zlen text) 1024).
  - rewrite (u32_small (zlen text + 1)) by lia.
    replace (zlen text + 1) with (zlen (text ++ [0])) by (rewrite zlen_app; reflexivity).
    pose proof (bytes_mid [] (text ++ [0]) []) as Bm. cbn [app] in Bm. rewrite app_nil_r in Bm.
    change (zlen (@nil Z)) with 0 in Bm. rewrite Bm. cbn [bind]. rewrite M. cbn [bind]. destruct a; [reflexivity|contradiction].
  - rewrite firstn_all2 by (unfold zlen; lia). rewrite M. cbn [bind]. rewrite Z.ltb_irrefl. destruct a; [reflexivity|contradiction].
Qed.

(** ** append *)
Lemma append_ok t p a : nonul p -> zlen p < 2^63 -> zlen t <= STR_MAX ->
  str_append (Some (mk_sstr (zlen t) (t ++ [0]))) p a =
    Ok (if STR_MAX <? zlen p + zlen t then (Some (mk_sstr (zlen t) (t ++ [0])), false)
        else match a with None => (Some (mk_sstr (zlen t) (t ++ [0])), false)
             | Some _ => (Some (mk_sstr (zlen (t ++ p)) ((t ++ p) ++ [0])), true) end).
Proof.
  intros Hp Hz Ht. pose proof (zlen_nonneg p). pose proof (zlen_nonneg t). unfold str_append. cbn [slen sbuf].
  rewrite strlen_ok by exact Hp. cbn [bind]. unfold STR_MAX in *. rewrite (u64_small (2^32 - 1 - 4 - 1 - zlen t)) by lia.
  destruct (Z.ltb_spec (2^32 - 1 - 4 - 1 - zlen t) (zlen p)).
  { now replace (2^32 - 1 - 4 - 1 <? zlen p + zlen t) with true by lia. }
  replace (2^32 - 1 - 4 - 1 <? zlen p + zlen t) with false by lia.
  unfold str_bytes. rewrite (u64_small (zlen t + zlen p)), u64_small by lia.
  destruct a as [junk|]; cbn [realloc option_map]; [|reflexivity].
  set (b := firstn _ _).
  assert (Hb : exists r, b = t ++ r /\ zlen r = zlen p + 1).
  { unfold b. exists (firstn (Z.to_nat (zlen p + 1)) ([0] ++ junk ++ repeat 0 (Z.to_nat (zlen t + zlen p + 4 + 1 - 4)))). split.
    - rewrite <- app_assoc, firstn_app. rewrite firstn_all2 by (unfold zlen in *; lia). f_equal. f_equal. unfold zlen in *. lia.
    - rewrite zlen_firstn, !zlen_app, zlen_repeat. change (zlen [0]) with 1. pose proof (zlen_nonneg junk). lia. }
  destruct Hb as (r & -> & Hr).
  change (p ++ [0]) with ([] ++ p ++ [0]). change 0 with (@zlen Z []) at 2. rewrite bytes_mid. cbn [bind].
  assert (Hsplit : exists r1 z, r = r1 ++ [z] /\ zlen r1 = zlen p).
  { destruct (@exists_last _ r) as (r1 & z & ->); [intros ->; change (zlen (@nil Z)) with 0 in Hr; lia|].
    exists r1, z. split; [reflexivity|]. rewrite zlen_app in Hr. change (zlen [z]) with 1 in Hr. lia. }
  destruct Hsplit as (r1 & z & -> & Hr1). rewrite memcpy_mid by lia. cbn [bind].
  rewrite (u32_small (zlen p)), u32_small by lia. rewrite <- zlen_app, app_assoc.
  rewrite zput_mid. cbn [bind]. reflexivity.
Qed.

(** ** substring *)
Lemma substring_ok t i j a : 0 <= i -> 0 <= j < 2^32 -> zlen t <= STR_MAX ->
  let v := Some (mk_sstr (zlen t) (t ++ [0])) in
  (str_substring v i j a = Ok (v, false) /\ (a = None \/ j < i \/ zlen t < j)) \/
  (exists x y z, t = x ++ y ++ z /\ zlen x = i /\ zlen x + zlen y = j /\
     str_substring v i j a = Ok (Some (mk_sstr (zlen y) (y ++ [0])), true)).
Proof.
  intros Hi Hj Ht v. unfold v, str_substring. cbn [slen sbuf].
  destruct ((zlen t <? i) || (zlen t <? j) || (j <? i)) eqn:E; [left; split; [reflexivity|lia]|].
  assert (Hx : exists x y z, t = x ++ y ++ z /\ zlen x = i /\ zlen x + zlen y = j).
  { exists (firstn (Z.to_nat i) t), (zslice t i (j - i)), (skipn (Z.to_nat (j - i)) (skipn (Z.to_nat i) t)).
    split; [unfold zslice; now rewrite !firstn_skipn|]. rewrite zlen_zslice by lia. rewrite zlen_firstn. lia. }
  destruct Hx as (x & y & z & -> & Hx & Hy). unfold STR_MAX in Ht. rewrite !zlen_app in Ht.
  pose proof (zlen_nonneg x). pose proof (zlen_nonneg y). pose proof (zlen_nonneg z).
  assert (Hf : from ((x ++ y ++ z) ++ [0]) i = Ok (y ++ z ++ [0])).
  { rewrite <- Hx, <- !app_assoc. apply from_app. }
  rewrite Hf. cbn [bind]. replace (u32 (j - i)) with (zlen y) by (rewrite u32_small; lia).
  rewrite create_len_ok by lia. cbn [bind]. destruct a; [right|left; auto].
  exists x, y, z. auto.
Qed.

(** ** trim *)
Lemma strspn_ok set : nonul set -> forall t, exists l m, t = l ++ m /\ strspn (t ++ [0]) set = Ok (zlen l) /\
  Forall (fun x => In x set) l /\ (forall x y, m = x :: y -> ~ In x set).
Proof.
  intro Hs. induction t as [|c t (l & m & -> & H1 & H2 & H3)].
  - exists [], []. split; [reflexivity|]. split; [reflexivity|]. split; [constructor|]. discriminate.
  - cbn [app strspn]. destruct (negb (c =? 0) && one_of set c) eqn:E.
    + apply andb_prop in E as [E1 E2]. apply one_of_In in E2. exists (c :: l), m. split; [reflexivity|].
      rewrite H1. cbn [bind]. rewrite zlen_cons. split; [reflexivity|]. split; [constructor; auto|exact H3].
    + exists [], (c :: l ++ m). split; [reflexivity|]. split; [reflexivity|]. split; [constructor|].
      intros x y [= <- _] Hin. apply one_of_In in Hin. rewrite Hin, andb_true_r in E. destruct (Z.eqb_spec c 0); [|discriminate].
      subst. apply one_of_In in Hin. contradiction.
Qed.

Lemma trim_end_ok set pre : forall n m tl, n = length m -> exists mid r, m = mid ++ r /\
  trim_end n (pre ++ m ++ tl) (zlen pre) set = Ok (zlen pre + zlen mid) /\
  Forall (fun x => x = 0 \/ In x set) r /\ (forall x y, mid = y ++ [x] -> ~ (x = 0 \/ In x set)).
Proof.
  induction n as [|n IH]; intros m tl Hn; cbn [trim_end].
  - destruct m; [|discriminate]. exists [], []. split; [reflexivity|]. split; [f_equal; change (zlen (@nil Z)) with 0; lia|].
    split; [constructor|]. intros x y H. destruct y; discriminate.
  - destruct (@exists_last _ m) as (m' & x & ->); [intros ->; discriminate|].
    rewrite app_length in Hn. cbn in Hn. assert (Hn' : n = length m') by lia.
    replace (zlen pre + Z.of_nat n) with (zlen (pre ++ m')) by (rewrite zlen_app; unfold zlen; lia).
    replace (pre ++ (m' ++ [x]) ++ tl) with ((pre ++ m') ++ x :: tl) by (rewrite <- !app_assoc; reflexivity).
    rewrite zget_mid. cbn [or_ub bind]. unfold strchr_in. destruct ((x =? 0) || one_of set x) eqn:E.
    + destruct (IH m' (x :: tl) Hn') as (mid & r & -> & H1 & H2 & H3). exists mid, (r ++ [x]).
      split; [now rewrite app_assoc|]. rewrite <- app_assoc. rewrite H1. split; [reflexivity|]. split; [|exact H3].
      apply Forall_app. split; [exact H2|]. constructor; [|constructor].
      apply orb_prop in E as [E|E]; [left; lia|right; now apply one_of_In].
    + exists (m' ++ [x]), []. split; [now rewrite app_nil_r|].
      split; [rewrite !zlen_app; change (zlen [x]) with 1; f_equal; lia|]. split; [constructor|].
      intros x' y' He [Hx|Hx]; apply app_inj_tail in He as [_ <-].
      * subst. discriminate.
      * apply one_of_In in Hx. rewrite Hx, orb_true_r in E. discriminate.
Qed.

Lemma trim_ok t set a : nonul set -> zlen t <= STR_MAX ->
  let v := Some (mk_sstr (zlen t) (t ++ [0])) in
  exists mid, trimmed (fun x => In x set) (fun x => x = 0 \/ In x set) t mid /\
    ((str_trim v set a = Ok (v, false) /\ a = None) \/
     str_trim v set a = Ok (Some (mk_sstr (zlen mid) (mid ++ [0])), true)).
Proof.
  intros Hs Ht v. unfold v, str_trim. cbn [slen sbuf].
  destruct (strspn_ok set Hs t) as (l & m & -> & H1 & H2 & H3). rewrite H1. cbn [bind].
  pose proof (zlen_nonneg l). pose proof (zlen_nonneg m). unfold STR_MAX in Ht. rewrite zlen_app in Ht.
  replace (Z.to_nat (zlen (l ++ m) - zlen l)) with (length m) by (rewrite zlen_app; unfold zlen; lia).
  rewrite <- app_assoc. destruct (trim_end_ok set l (length m) m [0] eq_refl) as (mid & r & -> & H4 & H5 & H6).
  rewrite H4. cbn [bind]. pose proof (zlen_nonneg mid). pose proof (zlen_nonneg r).
  rewrite !zlen_app in Ht. rewrite !zlen_app. replace (zlen l + (zlen mid + zlen r) <? zlen l) with false by lia.
  exists mid. split.
  { exists l, r. split; [reflexivity|]. split; [exact H2|]. split; [exact H5|]. split; [|exact H6].
    intros x y ->. apply (H3 x (y ++ r)). reflexivity. }
  destruct (negb (zlen l =? 0) || negb (zlen l + zlen mid =? zlen l + (zlen mid + zlen r))) eqn:E.
  - rewrite from_app. cbn [bind]. replace (u32 (zlen l + zlen mid - zlen l)) with (zlen mid) by (rewrite u32_small; lia).
    rewrite <- app_assoc, create_len_ok by lia. cbn [bind]. destruct a; [right; reflexivity|left].
    rewrite !app_assoc. split; reflexivity.
  - assert (El : zlen l = 0) by lia. assert (Er : zlen r = 0) by lia. clear - El Er.
    assert (l = []) by (destruct l; [reflexivity|rewrite zlen_cons in El; pose proof (zlen_nonneg l); lia]).
    assert (r = []) by (destruct r; [reflexivity|rewrite zlen_cons in Er; pose proof (zlen_nonneg r); lia]). subst.
    right. rewrite !app_nil_r. cbn [app]. change (zlen (@nil Z)) with 0. rewrite Z.add_0_r. reflexivity.
Qed.

(** ** strstr *)
Lemma prefix_ok pat : nonul pat -> forall c tl, nonul c -> 
  (exists r, c = pat ++ r /\ prefix pat (c ++ 0 :: tl) = Ok true) \/
  ((forall r, c <> pat ++ r) /\ prefix pat (c ++ 0 :: tl) = Ok false).
Proof.
  induction pat as [|p pat IH]; intros Hp c tl Hc; cbn [prefix].
  - left. exists c. auto.
  - apply nonul_cons in Hp as [Hp1 Hp2]. destruct c as [|x c]; cbn [app].
    + destruct (Z.eqb_spec 0 p); [congruence|]. right. split; [discriminate|reflexivity].
    + apply nonul_cons in Hc as [Hc1 Hc2]. destruct (Z.eqb_spec x p) as [->|Hx].
      * destruct (IH Hp2 c tl Hc2) as [(r & -> & H)|[H1 H2]]; [left; exists r; auto|right].
        split; [intros r [= H]; now apply (H1 r)|exact H2].
      * right. split; [intros r [= H]; congruence|reflexivity].
Qed.
Lemma occurs0 pat c : occurs pat c 0 <-> exists r, c = pat ++ r.
Proof.
  split.
  - intros (a & b & -> & H). destruct a as [|z a]; [|rewrite zlen_cons in H; pose proof (zlen_nonneg a); lia]. exists b. reflexivity.
  - intros (r & ->). exists [], r. auto.
Qed.
Lemma occurs_cons pat x c k : occurs pat (x :: c) k -> k <> 0 -> occurs pat c (k - 1).
Proof.
  intros (a & b & H & Hk) Hn. destruct a as [|y a]; [change (zlen (@nil Z)) with 0 in Hk; lia|].
  cbn in H. injection H as -> ->. exists a, b. split; [reflexivity|]. rewrite zlen_cons in Hk. lia.
Qed.
Lemma occurs_neg pat c k : occurs pat c k -> 0 <= k.
Proof. intros (a & b & _ & <-). apply zlen_nonneg. Qed.

Lemma strstr_ok pat : nonul pat -> forall c tl, nonul c ->
  (exists a b, c = a ++ pat ++ b /\ strstr (c ++ 0 :: tl) pat = Ok (Some (zlen a)) /\
     forall k, k < zlen a -> ~ occurs pat c k) \/
  ((forall k, ~ occurs pat c k) /\ strstr (c ++ 0 :: tl) pat = Ok None).
Proof.
  intro Hp. induction c as [|x c IH]; intros tl Hc.
  - destruct (prefix_ok pat Hp [] tl Hc) as [(r & Hr & H)|[H1 H2]].
    + left. exists [], r. split; [exact Hr|]. split.
      * destruct pat; [reflexivity|discriminate].
      * intros k Hk Ho. apply occurs_neg in Ho. change (zlen (@nil Z)) with 0 in Hk. lia.
    + right. split.
      * intros k Ho. pose proof (occurs_neg _ _ _ Ho). destruct (Z.eq_dec k 0) as [->|].
        -- apply occurs0 in Ho as (r & Hr). now apply (H1 r).
        -- destruct Ho as (a & b & Ho & Hk). destruct a; [change (zlen (@nil Z)) with 0 in Hk; lia|discriminate].
      * cbn [app] in *. cbn [strstr]. rewrite H2. reflexivity.
  - pose proof Hc as Hc'. apply nonul_cons in Hc' as [Hx Hc']. cbn [app strstr].
    destruct (prefix_ok pat Hp (x :: c) tl Hc) as [(r & Hr & H)|[H1 H2]]; cbn [app] in *.
    + rewrite H. cbn [bind]. left. exists [], r. split; [exact Hr|]. split; [reflexivity|].
      intros k Hk Ho. apply occurs_neg in Ho. change (zlen (@nil Z)) with 0 in Hk. lia.
    + rewrite H2. cbn [bind]. destruct (Z.eqb_spec x 0); [contradiction|].
      assert (H0 : ~ occurs pat (x :: c) 0) by (intro Ho; apply occurs0 in Ho as (r & Hr); now apply (H1 r)).
      destruct (IH tl Hc') as [(a & b & -> & E & Hl)|[Hn E]]; rewrite E; cbn [bind option_map].
      * left. exists (x :: a), b. split; [reflexivity|]. rewrite zlen_cons. split; [do 2 f_equal; lia|].
        intros k Hk Ho. destruct (Z.eq_dec k 0) as [->|Hk0]; [contradiction|].
        apply occurs_cons in Ho; [|exact Hk0]. apply (Hl (k - 1)); [lia|exact Ho].
      * right. split; [|reflexivity]. intros k Ho. destruct (Z.eq_dec k 0) as [->|Hk0]; [contradiction|].
        apply occurs_cons in Ho; [|exact Hk0]. now apply (Hn (k - 1)).
Qed.

Lemma find_ok pat pre c tl : nonul pat -> nonul c ->
  (exists a b, c = a ++ pat ++ b /\ find (pre ++ c ++ 0 :: tl) (zlen pre) pat = Ok (Some (zlen pre + zlen a)) /\
     forall k, k < zlen a -> ~ occurs pat c k) \/
  ((forall k, ~ occurs pat c k) /\ find (pre ++ c ++ 0 :: tl) (zlen pre) pat = Ok None).
Proof.
  intros Hp Hc. unfold find. rewrite from_app. cbn [bind].
  destruct (strstr_ok pat Hp c tl Hc) as [(a & b & H1 & -> & H2)|[H1 ->]]; cbn [bind option_map].
  - left. exists a, b. auto.
  - right. auto.
Qed.

(** ** replace *)
Lemma nonul_parts a pat b : nonul (a ++ pat ++ b) -> nonul b.
Proof. rewrite !nonul_app. tauto. Qed.

Lemma rep_same_ok pat w : nonul pat -> pat <> [] -> zlen w = zlen pat -> forall fuel pre c tl, nonul c -> (length c < fuel)%nat ->
  exists c', replaced pat w c c' /\ rep_same fuel (pre ++ c ++ 0 :: tl) (zlen pre) pat w = Ok (pre ++ c' ++ 0 :: tl).
Proof.
  intros Hp Hne Hw. induction fuel as [|fuel IH]; intros pre c tl Hc Hf; [lia|]. cbn [rep_same].
  destruct (find_ok pat pre c tl Hp Hc) as [(a & b & -> & -> & Hl)|[Hn ->]]; cbn [bind].
  - replace (pre ++ (a ++ pat ++ b) ++ 0 :: tl) with ((pre ++ a) ++ pat ++ (b ++ 0 :: tl)) by (rewrite <- !app_assoc; reflexivity).
    rewrite <- zlen_app. rewrite memcpy_mid by exact Hw. cbn [bind].
    replace (zlen (pre ++ a) + zlen pat) with (zlen (pre ++ a ++ w)) by (rewrite !zlen_app; lia).
    replace ((pre ++ a) ++ w ++ b ++ 0 :: tl) with ((pre ++ a ++ w) ++ b ++ 0 :: tl) by (rewrite <- !app_assoc; reflexivity).
    destruct (IH (pre ++ a ++ w) b tl) as (b' & R & ->).
    { eapply nonul_parts; eauto. }
    { rewrite !app_length in Hf. destruct pat; [contradiction|cbn in Hf; lia]. }
    exists (a ++ w ++ b'). split; [now constructor|]. f_equal. rewrite <- !app_assoc. reflexivity.
  - exists c. split; [now constructor|reflexivity].
Qed.

(** The number of replacements fixes the length. *)
Inductive replaced_n (pat w : list Z) : list Z -> list Z -> Z -> Prop :=
| RN_none t : (forall k, ~ occurs pat t k) -> replaced_n pat w t t 0
| RN_some a b b' n : (forall k, k < zlen a -> ~ occurs pat (a ++ pat ++ b) k) -> replaced_n pat w b b' n ->
    replaced_n pat w (a ++ pat ++ b) (a ++ w ++ b') (n + 1).
Lemma rn_replaced pat w t t' n : replaced_n pat w t t' n -> replaced pat w t t'.
Proof. induction 1; now constructor. Qed.
Lemma rn_len pat w t t' n : replaced_n pat w t t' n -> 0 <= n /\ zlen t' = zlen t + n * (zlen w - zlen pat).
Proof. induction 1 as [|a b b' n _ _ [IH1 IH2]]; [lia|]. rewrite !zlen_app. rewrite IH2. lia. Qed.

Lemma rn_zero pat w t t' n : replaced_n pat w t t' n -> n = 0 -> t' = t.
Proof. destruct 1 as [|a b b' n _ R]; [reflexivity|]. apply rn_len in R. lia. Qed.

Lemma rep_count_ok pat w : nonul pat -> pat <> [] -> zlen w < 2^32 - 1 -> zlen w - zlen pat <> 0 ->
  forall fuel pre c tl count size,
  nonul c -> (length c < fuel)%nat -> zlen c <= size <= STR_MAX ->
  exists c' n, replaced_n pat w c c' n /\
    ((STR_MAX < size + n * (zlen w - zlen pat) /\
      rep_count fuel (pre ++ c ++ 0 :: tl) (zlen pre) pat (zlen w - zlen pat) count size = Ok None) \/
     (size + n * (zlen w - zlen pat) <= STR_MAX /\
      rep_count fuel (pre ++ c ++ 0 :: tl) (zlen pre) pat (zlen w - zlen pat) count size
        = Ok (Some (count + n, size + n * (zlen w - zlen pat))))).
Proof.
  intros Hp Hne Hw Hd. set (diff := zlen w - zlen pat) in *.
  induction fuel as [|fuel IH]; intros pre c tl count size Hc Hf Hs; [lia|]. cbn [rep_count].
  destruct (find_ok pat pre c tl Hp Hc) as [(a & b & -> & -> & Hl)|[Hn ->]]; cbn [bind].
  - pose proof (zlen_nonneg a). pose proof (zlen_nonneg b). pose proof (zlen_nonneg w).
    assert (Hf' : (length b < fuel)%nat) by (rewrite !app_length in Hf; destruct pat; [contradiction|cbn in Hf; lia]).
    assert (Hb : nonul b) by (eapply nonul_parts; eauto). rewrite !zlen_app in Hs.
    assert (Hpl : 0 < zlen pat) by (destruct pat; [contradiction|rewrite zlen_cons; pose proof (zlen_nonneg pat); lia]).
    destruct (Z.ltb_spec (STR_MAX - diff) size) as [Hov|Hok].
    + destruct (IH [] b [] 0 (zlen b)) as (b' & n & R & _); [exact Hb|exact Hf'|lia|].
      exists (a ++ w ++ b'), (n + 1). split; [now constructor|]. left. split; [|reflexivity].
      apply rn_len in R as [R1 _]. assert (0 < diff) by lia. nia.
    + rewrite u64_small by (unfold STR_MAX in *; lia).
      replace (pre ++ (a ++ pat ++ b) ++ 0 :: tl) with ((pre ++ a ++ pat) ++ b ++ 0 :: tl) by (rewrite <- !app_assoc; reflexivity).
      replace (zlen pre + zlen a + zlen pat) with (zlen (pre ++ a ++ pat)) by (rewrite !zlen_app; lia).
      destruct (IH (pre ++ a ++ pat) b tl (count + 1) (size + diff)) as (b' & n & R & O); [exact Hb|exact Hf'|lia|].
      exists (a ++ w ++ b'), (n + 1). split; [now constructor|].
      replace (size + (n + 1) * diff) with (size + diff + n * diff) by lia.
      replace (count + (n + 1)) with (count + 1 + n) by lia. exact O.
  - exists c, 0. split; [now constructor|]. right. split; [lia|]. do 3 f_equal; lia.
Qed.

Lemma rep_copy_ok pat w c c' n : replaced_n pat w c c' n -> nonul pat -> forall pre tl dest tmp,
  nonul c -> 0 <= tmp -> tmp + zlen c' + 1 <= zlen dest ->
  exists dest' x y pre', rep_copy (Z.to_nat n) (pre ++ c ++ 0 :: tl) dest tmp (zlen pre) pat w
      = Ok (dest', tmp + zlen x, zlen pre') /\
    c' = x ++ y /\ pre ++ c = pre' ++ y /\ zlen dest' = zlen dest /\
    firstn (Z.to_nat (tmp + zlen x)) dest' = firstn (Z.to_nat tmp) dest ++ x.
Proof.
  induction 1 as [t Hno|a b b' n Hl R IH]; intros Hp pre tl dest tmp Hc Ht Hd.
  - exists dest, [], t, pre. cbn [rep_copy Z.to_nat]. change (zlen (@nil Z)) with 0. rewrite Z.add_0_r, app_nil_r.
    split; [reflexivity|]. auto.
  - pose proof (rn_len _ _ _ _ _ R) as [Hn Hlen]. replace (Z.to_nat (n + 1)) with (S (Z.to_nat n)) by lia. cbn [rep_copy].
    pose proof (zlen_nonneg a) as Za. pose proof (zlen_nonneg w) as Zw. pose proof (zlen_nonneg b') as Zb. rewrite !zlen_app in Hd.
    destruct (find_ok pat pre (a ++ pat ++ b) tl Hp Hc) as [(a1 & b1 & He & -> & Hl1)|[Hno _]].
    2:{ exfalso. apply (Hno (zlen a)). exists a, b. auto. }
    assert (Haa : a1 = a /\ b1 = b).
    { assert (Hz : zlen a1 = zlen a).
      { destruct (Z.lt_trichotomy (zlen a1) (zlen a)) as [H|[H|H]]; [|exact H|].
        - exfalso. apply (Hl (zlen a1) H). exists a1, b1. auto.
        - exfalso. apply (Hl1 (zlen a) H). exists a, b. auto. }
      assert (Ha : a1 = a).
      { apply (f_equal (firstn (length a))) in He. rewrite firstn_app, firstn_all, Nat.sub_diag in He. cbn in He.
        rewrite app_nil_r in He. rewrite firstn_app in He. replace (length a - length a1)%nat with 0%nat in He by (unfold zlen in Hz; lia).
        cbn in He. rewrite app_nil_r, firstn_all2 in He by (unfold zlen in Hz; lia). now symmetry. }
      subst a1. apply app_inv_head in He. apply app_inv_head in He. auto. }
    destruct Haa as [-> ->]. cbn [bind or_ub]. replace (zlen pre + zlen a - zlen pre) with (zlen a) by lia.
    replace (pre ++ (a ++ pat ++ b) ++ 0 :: tl) with (pre ++ a ++ (pat ++ b ++ 0 :: tl)) by (rewrite <- !app_assoc; reflexivity).
    rewrite bytes_mid. cbn [bind].
    assert (Hsp : exists d0 d1 d2 d3, dest = d0 ++ d1 ++ d2 ++ d3 /\ zlen d0 = tmp /\ zlen d1 = zlen a /\ zlen d2 = zlen w + 1).
    { exists (firstn (Z.to_nat tmp) dest), (firstn (Z.to_nat (zlen a)) (skipn (Z.to_nat tmp) dest)),
        (firstn (Z.to_nat (zlen w + 1)) (skipn (Z.to_nat (zlen a)) (skipn (Z.to_nat tmp) dest))),
        (skipn (Z.to_nat (zlen w + 1)) (skipn (Z.to_nat (zlen a)) (skipn (Z.to_nat tmp) dest))).
      rewrite !firstn_skipn. split; [reflexivity|]. rewrite !zlen_firstn, !zlen_skipn. lia. }
    destruct Hsp as (d0 & d1 & d2 & d3 & -> & Hd0 & Hd1 & Hd2). subst tmp.
    rewrite memcpy_mid by lia. cbn [bind]. rewrite <- zlen_app, app_assoc, memcpy_mid
      by (rewrite zlen_app; change (zlen [0]) with 1; lia). cbn [bind].
    replace (pre ++ a ++ pat ++ b ++ 0 :: tl) with ((pre ++ a ++ pat) ++ b ++ 0 :: tl) by (rewrite <- !app_assoc; reflexivity).
    replace (zlen pre + zlen a + zlen pat) with (zlen (pre ++ a ++ pat)) by (rewrite !zlen_app; lia).
    rewrite !zlen_app in Hd.
    destruct (IH Hp (pre ++ a ++ pat) tl ((d0 ++ a) ++ (w ++ [0]) ++ d3) (zlen (d0 ++ a) + zlen w))
      as (dest' & x & y & pre' & E & Hc' & Hpre & Hld & Hfn).
    { eapply nonul_parts; eauto. }
    { pose proof (zlen_nonneg (d0 ++ a)). lia. }
    { rewrite !zlen_app. change (zlen [0]) with 1. lia. }
    rewrite E. exists dest', (a ++ w ++ x), y, pre'. rewrite Hc'. split.
    { replace (zlen (d0 ++ a) + zlen w + zlen x) with (zlen d0 + zlen (a ++ w ++ x)) by (rewrite !zlen_app; lia). reflexivity. }
    split; [now rewrite <- !app_assoc|]. split; [rewrite <- Hpre, <- !app_assoc; reflexivity|]. split.
    { rewrite Hld, !zlen_app. change (zlen [0]) with 1. lia. }
    replace (zlen d0 + zlen (a ++ w ++ x)) with (zlen (d0 ++ a) + zlen w + zlen x) by (rewrite !zlen_app; lia).
    rewrite Hfn.
    replace (zlen (d0 ++ a) + zlen w) with (zlen ((d0 ++ a) ++ w)) by (rewrite !zlen_app; lia).
    rewrite <- (app_assoc w), (app_assoc (d0 ++ a)).
    replace (Z.to_nat (zlen ((d0 ++ a) ++ w))) with (length ((d0 ++ a) ++ w)) by (unfold zlen; lia).
    rewrite firstn_app, firstn_all, Nat.sub_diag. cbn [firstn]. rewrite app_nil_r.
    replace (Z.to_nat (zlen d0)) with (length d0) by (unfold zlen; lia).
    rewrite (firstn_app (length d0) d0), firstn_all, Nat.sub_diag. cbn [firstn]. rewrite app_nil_r, <- !app_assoc. reflexivity.
Qed.

Lemma replace_ok t pat w a fuel : nonul pat -> nonul w -> pat <> [] -> zlen t <= STR_MAX -> (length t < fuel)%nat ->
  let v := Some (mk_sstr (zlen t) (t ++ [0])) in
  (str_replace fuel v pat w a = Ok (v, false) /\
     (a = None \/ 2^32 - 1 <= zlen pat \/ 2^32 - 1 <= zlen w \/ exists t', c_replaced pat w t t' /\ STR_MAX < zlen t')) \/
  (exists t', c_replaced pat w t t' /\ zlen t' <= STR_MAX /\
     str_replace fuel v pat w a = Ok (Some (mk_sstr (zlen t') (t' ++ [0])), true)).
Proof.
  intros Hp Hw Hne Ht Hf v. unfold v, str_replace. cbn [slen sbuf].
  destruct ((2^32 - 1 <=? zlen pat) || (2^32 - 1 <=? zlen w)) eqn:E; [left; split; [reflexivity|lia]|].
  destruct (before_nul_split t) as (tl0 & Hs & Hnb). destruct (before_nul_prefix t) as (tl & Htl).
  set (c := before_nul t) in *.
  assert (Htl0 : tl ++ [0] = 0 :: tl0).
  { rewrite Htl, <- app_assoc in Hs. now apply app_inv_head in Hs. }
  assert (Hc : zlen c <= zlen t) by (rewrite Htl; rewrite zlen_app; pose proof (zlen_nonneg tl); lia).
  assert (Hfc : (length c < fuel)%nat) by (unfold zlen in Hc; lia).
  assert (Fin : forall c', replaced pat w c c' -> c_replaced pat w t (c' ++ tl)).
  { intros c' R. exists c, c', tl. auto. }
  destruct (Z.eqb_spec (zlen w - zlen pat) 0) as [Hd|Hd].
  - destruct (rep_same_ok pat w Hp Hne ltac:(lia) fuel [] c tl0 Hnb Hfc) as (c' & R & Er).
    rewrite Hs. cbn [app] in Er. change (zlen (@nil Z)) with 0 in Er. rewrite Er. cbn [bind]. right.
    assert (Hlen : zlen (c' ++ tl) = zlen t).
    { rewrite Htl, !zlen_app. f_equal. clear - R Hd. induction R; [reflexivity|]. rewrite !zlen_app. lia. }
    exists (c' ++ tl). split; [auto|]. split; [lia|]. rewrite Hlen, <- app_assoc, Htl0. reflexivity.
  - destruct (rep_count_ok pat w Hp Hne ltac:(lia) Hd fuel [] c tl0 0 (zlen t) Hnb Hfc ltac:(lia)) as (c' & n & R & O).
    pose proof (rn_len _ _ _ _ _ R) as [Hn Hlen]. cbn [app] in O. change (zlen (@nil Z)) with 0 in O.
    rewrite Hs.
    assert (Hl' : zlen (c' ++ tl) = zlen t + n * (zlen w - zlen pat)) by (rewrite Htl, !zlen_app; lia).
    destruct O as [[Hov ->]|[Hfit ->]]; cbn [bind].
    { left. split; [now rewrite <- Hs|]. right. right. right. exists (c' ++ tl). split; [apply Fin; eapply rn_replaced; eauto|lia]. }
    rewrite Z.add_0_l. destruct (Z.eqb_spec n 0) as [->|Hn0].
    { right. pose proof (rn_zero _ _ _ _ _ R eq_refl) as Hz. rewrite Hz in R. exists (c ++ tl). rewrite <- Htl. rewrite <- Hs.
      split; [rewrite Htl at 2; apply Fin; eapply rn_replaced; eauto|]. split; [exact Ht|reflexivity]. }
    pose proof (block_ok (zlen t + n * (zlen w - zlen pat)) a) as B. pose proof (zlen_nonneg (c' ++ tl)).
    unfold STR_MAX in *. destruct (block _ a) as [d|]; [|left; rewrite B by lia; split; [now rewrite <- Hs|auto]].
    destruct B as [B1 B2]; [lia|].
    destruct (rep_copy_ok pat w c c' n R Hp [] tl0 d 0 Hnb) as (d' & x & y & pre' & Er & Hc' & Hpre & Hld & Hfn); [lia| |].
    { rewrite zlen_app in Hl'. pose proof (zlen_nonneg tl). lia. }
    cbn [app] in Er. change (zlen (@nil Z)) with 0 in Er. rewrite Er. cbn [bind]. rewrite Z.add_0_l in *.
    cbn [app] in Hpre. rewrite Hpre, <- app_assoc.
    assert (Hyl : zlen t - zlen pre' + 1 = zlen (y ++ 0 :: tl0)).
    { rewrite <- Htl0. rewrite Htl, Hpre, !zlen_app. change (zlen [0]) with 1. lia. }
    rewrite Hyl. replace (pre' ++ y ++ 0 :: tl0) with (pre' ++ (y ++ 0 :: tl0) ++ []) by (rewrite app_nil_r; reflexivity).
    rewrite bytes_mid. cbn [bind].
    assert (Hd' : exists z, d' = x ++ z /\ zlen z = zlen (y ++ 0 :: tl0)).
    { exists (skipn (Z.to_nat (zlen x)) d'). cbn [firstn Z.to_nat app] in Hfn. rewrite <- Hfn at 1.
      split; [now rewrite firstn_skipn|]. rewrite zlen_skipn, Hld, B1, <- Hl', Hc', <- Htl0, !zlen_app. change (zlen [0]) with 1.
      pose proof (zlen_nonneg x). pose proof (zlen_nonneg y). pose proof (zlen_nonneg tl). lia. }
    destruct Hd' as (z & -> & Hz). pose proof (memcpy_mid x z [] (y ++ 0 :: tl0)) as M. rewrite !app_nil_r in M.
    rewrite M by lia. cbn [bind]. right. exists (c' ++ tl). split; [apply Fin; eapply rn_replaced; eauto|]. split; [lia|].
    rewrite <- Hl', u32_small by lia. rewrite Hc', <- !app_assoc, Htl0. reflexivity.
Qed.

(** ** Replace with the empty pattern *)
Lemma find_empty m p : 0 <= p < zlen m -> find m p [] = Ok (Some p).
Proof.
  intro H. unfold find, from. replace ((0 <=? p) && (p <=? zlen m)) with true by lia. cbn [bind].
  destruct (skipn (Z.to_nat p) m) eqn:E.
  - exfalso. assert (zlen (skipn (Z.to_nat p) m) = 0) by now rewrite E. rewrite zlen_skipn in H0. lia.
  - cbn. do 2 f_equal. lia.
Qed.
Lemma rep_same_empty : forall fuel m p, 0 <= p < zlen m -> rep_same fuel m p [] [] = Fuel.
Proof.
  induction fuel as [|fuel IH]; intros m p H; [reflexivity|]. cbn [rep_same]. rewrite find_empty by exact H. cbn [bind].
  rewrite memcpy_ok by (change (zlen (@nil Z)) with 0; lia). cbn [bind app]. change (zlen (@nil Z)) with 0.
  rewrite Z.add_0_r, firstn_skipn. now apply IH.
Qed.
Lemma rep_count_empty diff : 0 < diff < 2^32 - 1 -> forall fuel m p count size, 0 <= p < zlen m -> 0 <= size <= STR_MAX ->
  STR_MAX - size < Z.of_nat fuel -> rep_count fuel m p [] diff count size = Ok None.
Proof.
  intros Hd. induction fuel as [|fuel IH]; intros m p count size Hp Hs Hf; [lia|]. cbn [rep_count].
  rewrite find_empty by exact Hp. cbn [bind]. destruct (Z.ltb_spec (STR_MAX - diff) size); [reflexivity|].
  rewrite u64_small by (unfold STR_MAX in *; lia). change (zlen (@nil Z)) with 0. rewrite Z.add_0_r. apply IH; lia.
Qed.

(** ** Replacement is a function *)
Lemma first_occ_unique pat a b a1 b1 : a ++ pat ++ b = a1 ++ pat ++ b1 ->
  (forall k, k < zlen a -> ~ occurs pat (a ++ pat ++ b) k) -> (forall k, k < zlen a1 -> ~ occurs pat (a1 ++ pat ++ b1) k) ->
  a = a1 /\ b = b1.
Proof.
  intros He Hl Hl1. assert (Hz : zlen a1 = zlen a).
  { destruct (Z.lt_trichotomy (zlen a1) (zlen a)) as [H|[H|H]]; [|exact H|].
    - exfalso. apply (Hl (zlen a1) H). exists a1, b1. auto.
    - exfalso. apply (Hl1 (zlen a) H). exists a, b. auto. }
  assert (Ha : a = a1).
  { apply (f_equal (firstn (length a))) in He. rewrite firstn_app, firstn_all, Nat.sub_diag in He. cbn in He.
    rewrite app_nil_r in He. rewrite firstn_app in He. replace (length a - length a1)%nat with 0%nat in He by (unfold zlen in Hz; lia).
    cbn in He. rewrite app_nil_r, firstn_all2 in He by (unfold zlen in Hz; lia). exact He. }
  subst a1. apply app_inv_head in He. apply app_inv_head in He. auto.
Qed.
Lemma replaced_unique pat w t t1 : replaced pat w t t1 -> forall t2, replaced pat w t t2 -> t1 = t2.
Proof.
  induction 1 as [t Hno|a b b' Hl R IH]; intros t2 H2.
  - destruct H2 as [|a b b']; [reflexivity|]. exfalso. apply (Hno (zlen a)). exists a, b. auto.
  - remember (a ++ pat ++ b) as t eqn:Et. destruct H2 as [t Hno|a1 b1 b1' Hl1 R1].
    + exfalso. apply (Hno (zlen a)). exists a, b. auto.
    + symmetry in Et. rewrite <- Et in Hl. destruct (first_occ_unique _ _ _ _ _ Et Hl Hl1) as [-> ->]. now rewrite (IH _ R1).
Qed.

(** ** Tokens *)
Definition clean (t : list Z) : sstr := mk_sstr (zlen t) (t ++ [0]).
Definition go (s : sstr) (it : Z) (delim : list Z) : res (sstr * option Z * option Z) :=
  let* l := from (sbuf s) it in
  let* n := strcspn l delim in
  let* s := str_swap s (it + n) in
  Ok (s, Some (it + n), Some it).
Lemma swap_mid a x b y : str_swap (mk_sstr (zlen (a ++ x :: b)) ((a ++ x :: b) ++ [y])) (zlen a)
  = Ok (mk_sstr (zlen (a ++ y :: b)) ((a ++ y :: b) ++ [x])).
Proof.
  unfold str_swap. cbn [slen sbuf]. rewrite zget_mid. cbn [or_ub bind].
  rewrite <- app_assoc. cbn [app]. rewrite zget_mid. cbn [or_ub bind].
  rewrite app_comm_cons, app_assoc, zput_mid. cbn [bind]. rewrite <- app_assoc. cbn [app]. rewrite zput_mid. cbn [bind].
  rewrite <- app_assoc. cbn [app]. rewrite !zlen_app, !zlen_cons. reflexivity.
Qed.
Lemma swap_end t : str_swap (clean t) (zlen t) = Ok (clean t).
Proof.
  unfold str_swap, clean. cbn [slen sbuf]. rewrite zget_mid. cbn [or_ub bind]. rewrite !zput_mid. cbn [bind].
  rewrite zput_mid. reflexivity.
Qed.
Lemma swap_clean a b : (b = [] \/ exists r, b = 0 :: r) -> str_swap (clean (a ++ b)) (zlen a) = Ok (clean (a ++ b)).
Proof. intros [->|[r ->]]; [rewrite app_nil_r; apply swap_end|apply swap_mid]. Qed.

Lemma strcspn_ok delim : nonul delim -> forall t, exists p r, t = p ++ r /\ strcspn (t ++ [0]) delim = Ok (zlen p) /\
  Forall (fun x => ~ In x delim) p /\ nonul p /\
  ((exists x y, r = x :: y /\ x <> 0 /\ In x delim) \/ r = [] \/ exists y, r = 0 :: y).
Proof.
  intro Hd. induction t as [|c t (p & r & -> & H1 & H2 & H3 & H4)].
  - exists [], []. split; [reflexivity|]. split; [reflexivity|]. split; [constructor|]. split; [intros []|auto].
  - cbn [app strcspn]. destruct ((c =? 0) || one_of delim c) eqn:E.
    + exists [], (c :: p ++ r). split; [reflexivity|]. split; [reflexivity|]. split; [constructor|]. split; [intros []|].
      destruct (Z.eqb_spec c 0) as [->|]; [right; right; eauto|]. left. exists c, (p ++ r). split; [reflexivity|].
      split; [exact n|]. now apply one_of_In.
    + exists (c :: p), r. split; [reflexivity|]. rewrite H1. cbn [bind]. rewrite zlen_cons. split; [reflexivity|].
      apply orb_false_iff in E as [E1 E2]. apply one_of_not in E2.
      split; [constructor; auto|]. split; [apply nonul_cons; split; [lia|auto]|exact H4].
Qed.
Lemma before_nul_app p r : nonul p -> before_nul (p ++ r) = p ++ before_nul r.
Proof.
  induction p as [|c p IH]; intro H; [reflexivity|]. apply nonul_cons in H as [H1 H2]. cbn.
  destruct (Z.eqb_spec c 0); [contradiction|]. now rewrite IH.
Qed.
Lemma read_ok pre p tl n : nonul p -> read_token (mk_sstr n (pre ++ p ++ 0 :: tl)) (zlen pre) = Ok p.
Proof.
  intro H. unfold read_token. cbn [sbuf]. rewrite from_app. cbn [bind]. rewrite strlen_ok by exact H. cbn [bind].
  f_equal. apply (zslice_mid []).
Qed.
Lemma token_end_clean t save : token_end (clean t) save = Ok (clean t).
Proof. unfold token_end, clean. cbn [slen sbuf]. rewrite zget_mid. reflexivity. Qed.

Lemma tokens_go delim t : nonul delim -> forall k rest pre, (length rest <= k)%nat -> t = pre ++ rest ->
  exists ts, splits delim (before_nul rest) ts /\ forall n s0 save0,
    token_begin s0 save0 delim = go (clean t) (zlen pre) delim ->
    exists s' save', tokens (S n) s0 save0 delim = Ok (s', save', firstn (S n) ts, (length ts <? S n)%nat) /\
      token_end s' save' = Ok (clean t) /\ ((length ts < S n)%nat -> s' = clean t).
Proof.
  intro Hd. induction k as [|k IH]; intros rest pre Hk Ht.
  1-2: destruct (strcspn_ok delim Hd rest) as (p & r & Hr & H1 & H2 & H3 & H4).
  1-2: assert (Hgo : go (clean t) (zlen pre) delim =
    (let* s := str_swap (clean t) (zlen (pre ++ p)) in Ok (s, Some (zlen (pre ++ p)), Some (zlen pre))))
    by (unfold go, clean; cbn [sbuf]; rewrite Ht, <- app_assoc, from_app; cbn [bind]; rewrite H1; cbn [bind];
        now rewrite <- zlen_app).
  1-2: assert (Hend : (r = [] \/ exists y, r = 0 :: y) -> exists ts, splits delim (before_nul rest) ts /\ forall n s0 save0,
    token_begin s0 save0 delim = go (clean t) (zlen pre) delim ->
    exists s' save', tokens (S n) s0 save0 delim = Ok (s', save', firstn (S n) ts, (length ts <? S n)%nat) /\
      token_end s' save' = Ok (clean t) /\ ((length ts < S n)%nat -> s' = clean t)).
  1,3: intro Hr0; exists [p]; split;
      [ rewrite Hr, before_nul_app by exact H3; replace (before_nul r) with (@nil Z) by (destruct Hr0 as [->|[y ->]]; reflexivity);
        rewrite app_nil_r; apply Sp_last; exact H2
      | intros n s0 save0 Hb; cbn [tokens]; rewrite Hb, Hgo;
        replace (str_swap (clean t) (zlen (pre ++ p))) with (Ok (clean t))
          by (rewrite Ht, Hr, app_assoc; symmetry; now apply swap_clean);
        cbn [bind];
        replace (read_token (clean t) (zlen pre)) with (Ok p)
          by (symmetry; unfold clean; rewrite Ht, Hr; destruct Hr0 as [->|[y ->]];
              [rewrite app_nil_r, <- app_assoc; now apply read_ok
              |rewrite <- !app_assoc; cbn [app]; now apply read_ok]);
        cbn [bind]; exists (clean t), (Some (zlen (pre ++ p))); destruct n as [|n];
        [ cbn [tokens bind firstn length]; split; [reflexivity|]; split; [apply token_end_clean|auto]
        | cbn [tokens]; unfold token_begin;
          replace (str_swap (clean t) (zlen (pre ++ p))) with (Ok (clean t))
            by (rewrite Ht, Hr, app_assoc; symmetry; now apply swap_clean);
          cbn [bind];
          replace (zget (sbuf (clean t)) (zlen (pre ++ p))) with (Some 0)
            by (symmetry; unfold clean; cbn [sbuf]; rewrite Ht, Hr, app_assoc; destruct Hr0 as [->|[y ->]];
                [rewrite app_nil_r; apply zget_mid|rewrite <- app_assoc; cbn [app]; apply zget_mid]);
          cbn [or_ub bind]; change (0 =? 0) with true; cbn [bind firstn length];
          split; [reflexivity|]; split; [apply token_end_clean|auto] ] ].
  - destruct H4 as [(x & y & -> & _)|H4]; [|auto]. rewrite Hr, app_length in Hk. cbn in Hk. lia.
  - destruct H4 as [(x & y & -> & Hx & Hin)|H4]; [|auto]. clear Hend.
    destruct (IH y (pre ++ p ++ [x])) as (ts & Hs & Hts).
    { rewrite Hr, app_length in Hk. cbn in Hk. lia. }
    { rewrite Ht, Hr, <- !app_assoc. reflexivity. }
    exists (p :: ts). split.
    { rewrite Hr, before_nul_app by exact H3. cbn [before_nul]. destruct (Z.eqb_spec x 0); [contradiction|]. now constructor. }
    intros n s0 save0 Hb. cbn [tokens]. rewrite Hb, Hgo.
    set (sw := mk_sstr (zlen ((pre ++ p) ++ 0 :: y)) (((pre ++ p) ++ 0 :: y) ++ [x])).
    assert (Hct : clean t = mk_sstr (zlen ((pre ++ p) ++ x :: y)) (((pre ++ p) ++ x :: y) ++ [0])).
    { unfold clean. rewrite Ht, Hr, <- !app_assoc. reflexivity. }
    assert (Hsw : str_swap (clean t) (zlen (pre ++ p)) = Ok sw) by (rewrite Hct; apply swap_mid).
    assert (Hbk : str_swap sw (zlen (pre ++ p)) = Ok (clean t)) by (rewrite Hct; apply swap_mid).
    assert (Hte : token_end sw (Some (zlen (pre ++ p))) = Ok (clean t)).
    { unfold token_end, sw. cbn [slen sbuf]. rewrite zget_mid. cbn [or_ub bind]. destruct (Z.eqb_spec x 0); [contradiction|]. exact Hbk. }
    assert (Hnx : token_begin sw (Some (zlen (pre ++ p))) delim = go (clean t) (zlen (pre ++ p ++ [x])) delim).
    { unfold token_begin. rewrite Hbk. cbn [bind]. rewrite Hct. cbn [sbuf]. rewrite <- (app_assoc (pre ++ p)). cbn [app].
      rewrite zget_mid. cbn [or_ub bind]. destruct (Z.eqb_spec x 0); [contradiction|].
      replace (zlen (pre ++ p) + 1) with (zlen (pre ++ p ++ [x])) by (rewrite !zlen_app; change (zlen [x]) with 1; lia).
      reflexivity. }
    rewrite Hsw. cbn [bind].
    assert (Hrd : read_token sw (zlen pre) = Ok p).
    { unfold sw. rewrite <- !app_assoc. cbn [app]. now apply read_ok. }
    rewrite Hrd. cbn [bind]. destruct n as [|n].
    + cbn [tokens bind firstn length]. exists sw, (Some (zlen (pre ++ p))). split; [|split; [exact Hte|lia]]. reflexivity.
    + destruct (Hts n sw (Some (zlen (pre ++ p))) Hnx) as (s' & save' & E1 & E2 & E3). rewrite E1. cbn [bind].
      exists s', save'. split; [reflexivity|]. split; [exact E2|]. cbn [length]. intro H. apply E3. lia.
Qed.
Lemma tokens_all delim t : nonul delim -> exists ts, splits delim (before_nul t) ts /\ forall n,
  exists s' save', tokens n (clean t) None delim = Ok (s', save', firstn n ts, (length ts <? n)%nat) /\
    token_end s' save' = Ok (clean t) /\ ((length ts < n)%nat -> s' = clean t).
Proof.
  intro Hd. destruct (tokens_go delim t Hd (length t) t [] (le_n _) eq_refl) as (ts & Hs & Ht). exists ts. split; [exact Hs|].
  intros [|n]; [|now apply Ht]. exists (clean t), None. split; [reflexivity|]. split; [apply token_end_clean|]. lia.
Qed.
Lemma split_inj (D : Z -> Prop) p x t p1 x1 t1 : p ++ x :: t = p1 ++ x1 :: t1 ->
  Forall (fun y => ~ D y) p -> Forall (fun y => ~ D y) p1 -> D x -> D x1 -> p = p1 /\ x = x1 /\ t = t1.
Proof.
  revert p1. induction p as [|c p IH]; intros [|c1 p1] He F F1 Hx Hx1; cbn in He; injection He as -> He.
  - auto.
  - apply Forall_inv in F1. contradiction.
  - apply Forall_inv in F. contradiction.
  - destruct (IH p1 He (Forall_inv_tail F) (Forall_inv_tail F1) Hx Hx1) as (-> & -> & ->). auto.
Qed.
Lemma splits_unique delim t ts1 : splits delim t ts1 -> forall ts2, splits delim t ts2 -> ts1 = ts2.
Proof.
  induction 1 as [t F|p x t ts F Hx S IH]; intros ts2 H2.
  - destruct H2 as [|p x t ts _ Hx _]; [reflexivity|]. apply Forall_app in F as [_ F]. apply Forall_inv in F. contradiction.
  - remember (p ++ x :: t) as u eqn:Eu. destruct H2 as [u F2|p1 x1 t1 ts1 F1 Hx1 S1].
    + subst u. apply Forall_app in F2 as [_ F2]. apply Forall_inv in F2. contradiction.
    + destruct (split_inj (fun y => In y delim) _ _ _ _ _ _ Eu F1 F Hx1 Hx) as (-> & -> & ->). now rewrite (IH _ S1).
Qed.
