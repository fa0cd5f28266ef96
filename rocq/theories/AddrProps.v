(** Properties of the address texts and of the systemd notification, socket/sc_sock.c. *)
From Coq Require Import String Ascii.
From Verif Require Import Base CStr CNum IniModel StrSpec StrProofs IniProofs ScSpec ScProofs SockModel AddrModel.
From Verif Require SigSpec.
Local Open Scope list_scope.
Local Open Scope Z_scope.
Notation text := SigSpec.text.

(** ** C89: address texts *)

(** [b'] is the buffer [b] of [len] bytes (or more) after the text [t] was put into it, cut to fit, with a NUL. *)
Definition holds_cut (b b' : list Z) (len : Z) (t : list Z) : Prop :=
  let u := firstn (Z.to_nat (len - 1)) t in b' = u ++ 0 :: skipn (length u + 1) b.
(** The text of an address: host:port, or the path of a Unix socket. *)
Definition addr_text (ntop : Z -> storage -> list Z) (fam : Z) (st : storage) (t : list Z) : Prop :=
  ((fam = AF_INET \/ fam = AF_INET6) /\ exists h l r d, st = Some h :: Some l :: r /\ 0 <= h < 256 /\ 0 <= l < 256 /\ decimal (h * 256 + l) d /\ t = ntop fam st ++ 58 :: d) \/
  (fam = AF_UNIX /\ exists r, st = map Some t ++ Some 0 :: r /\ nonul t).

Lemma print_cut buf len t : 1 <= len <= zlen buf -> exists b1 b', zput buf 0 0 = Ok b1 /\ snprintf b1 len t = Ok (b', zlen t) /\ holds_cut buf b' len t.
Proof.
  intros H. destruct buf as [|x buf]; [cbn in H; lia|]. exists (0 :: buf). unfold zput. replace ((0 <=? 0) && (0 <? zlen (x :: buf))) with true by lia. change (zset (x :: buf) 0 0) with (0 :: buf).
  assert (El : zlen (0 :: buf) = zlen (x :: buf)) by (rewrite !zlen_cons; reflexivity).
  destruct (snprintf_ok (0 :: buf) len t ltac:(lia)) as (b' & E & L & C1 & C2 & _). exists b'. split; [reflexivity|]. split; [exact E|]. unfold holds_cut.
  assert (S : forall n, skipn (n + 1) (0 :: buf) = skipn (n + 1) (x :: buf)) by (intro n; rewrite Nat.add_comm; reflexivity).
  destruct (Z.lt_ge_cases (zlen t) len) as [Ht|Ht].
  - rewrite (C1 Ht). rewrite firstn_all2 by (unfold zlen in Ht; lia). rewrite S. reflexivity.
  - rewrite C2 by lia. replace (length (firstn (Z.to_nat (len - 1)) t) + 1)%nat with (Z.to_nat len) by (rewrite firstn_length; unfold zlen in Ht; lia).
    replace (Z.to_nat len) with (Z.to_nat (len - 1) + 1)%nat by lia. rewrite S. reflexivity.
Qed.
Lemma sun_path_ok t r : nonul t -> sun_path (map Some t ++ Some 0 :: r) = Ok t.
Proof. induction t as [|c t IH]; intro H; [reflexivity|]. apply nonul_cons in H as [H1 H2]. cbn. destruct (Z.eqb_spec c 0); [contradiction|]. rewrite IH by exact H2. reflexivity. Qed.

(** What the system stored: a port and an address, or a path with a NUL after it. *)
Definition stored (fam : Z) (st : storage) : Prop :=
  ((fam = AF_INET \/ fam = AF_INET6) /\ exists h l r, st = Some h :: Some l :: r /\ 0 <= h < 256 /\ 0 <= l < 256) \/
  (fam = AF_UNIX /\ exists t r, st = map Some t ++ Some 0 :: r /\ nonul t).
Lemma addr_str_ok ntop fam st buf len : stored fam st -> 1 <= len <= zlen buf ->
  exists t b', addr_text ntop fam st t /\ addr_str ntop (inl (fam, st)) buf len = Ok (b', true) /\ holds_cut buf b' len t.
Proof.
  intros Hs Hl. unfold addr_str, print_storage. destruct Hs as [(Hf & h & l & r & -> & Hh & Hlo)|(-> & t & r & -> & Hn)].
  - assert (D : decimal (h * 256 + l) (digits 6 (h * 256 + l))) by (apply digits_decimal; [change (10 ^ Z.of_nat 6) with 1000000; lia|lia]).
    set (st := Some h :: Some l :: r) in *. destruct (print_cut buf len (ntop fam st ++ [58] ++ digits 6 (h * 256 + l)) Hl) as (b1 & b' & E1 & E2 & C).
    rewrite E1. cbn [bind]. replace ((fam =? AF_INET) || (fam =? AF_INET6)) with true by (destruct Hf as [->| ->]; reflexivity).
    change (port st) with (Ok (h * 256 + l)). cbn [bind]. rewrite E2. cbn [bind]. exists (ntop fam st ++ [58] ++ digits 6 (h * 256 + l)), b'. split; [|split; [reflexivity|exact C]].
    left. split; [exact Hf|]. exists h, l, r, (digits 6 (h * 256 + l)). auto 6.
  - destruct (print_cut buf len t Hl) as (b1 & b' & E1 & E2 & C). rewrite E1. cbn [bind]. change ((AF_UNIX =? AF_INET) || (AF_UNIX =? AF_INET6)) with false. change (AF_UNIX =? AF_UNIX) with true. cbv iota.
    rewrite sun_path_ok by exact Hn. cbn [bind]. rewrite E2. cbn [bind]. exists t, b'. split; [|split; [reflexivity|exact C]]. right. eauto.
Qed.
(** sc_sock_local_str and sc_sock_remote_str with a buffer of at least one byte: the text of the address, cut to fit and
    terminated, and not a byte beyond; when the system does not know the address, an empty text and NULL.  Missing: length 0
    and unnamed Unix sockets, for which it is false (addr_texts_refuted). *)
Theorem addr_texts_partial : forall (ntop : Z -> storage -> list Z) (a : (Z * storage) + Z) (buf : list Z) (len : Z),
  (forall fam st, a = inl (fam, st) -> stored fam st) -> 1 <= len <= zlen buf ->
  exists b', addr_str ntop a buf len = Ok (b', match a with inl _ => true | inr _ => false end) /\ zlen b' = zlen buf /\ skipn (Z.to_nat len) b' = skipn (Z.to_nat len) buf /\
    match a with
    | inl (fam, st) => exists t, addr_text ntop fam st t /\ holds_cut buf b' len t
    | inr _ => holds_cut buf b' len []
    end.
Proof.
  intros ntop a buf len Hs Hl.
  assert (C : forall b' t, holds_cut buf b' len t -> zlen b' = zlen buf /\ skipn (Z.to_nat len) b' = skipn (Z.to_nat len) buf).
  { intros b' t ->. set (u := firstn (Z.to_nat (len - 1)) t). assert (Lu : (length u <= Z.to_nat (len - 1))%nat) by apply firstn_le_length. split.
    - rewrite zlen_app, zlen_cons, zlen_skipn. unfold zlen in *. lia.
    - change (u ++ 0 :: skipn (length u + 1) buf) with (u ++ [0] ++ skipn (length u + 1) buf). rewrite app_assoc, skipn_app. rewrite skipn_all2 by (rewrite app_length; cbn; lia). cbn [app].
      rewrite skipn_skipn, app_length. cbn [length]. f_equal. lia. }
  destruct a as [[fam st]|e].
  - destruct (addr_str_ok ntop fam st buf len (Hs fam st eq_refl) Hl) as (t & b' & T & E & H). exists b'. split; [exact E|]. destruct (C b' t H) as (C1 & C2). eauto.
  - destruct buf as [|x buf]; [cbn in Hl; lia|]. exists (0 :: buf). unfold addr_str, zput. replace ((0 <=? 0) && (0 <? zlen (x :: buf))) with true by lia. split; [reflexivity|].
    assert (H : holds_cut (x :: buf) (0 :: buf) len []) by (unfold holds_cut; rewrite firstn_nil; reflexivity). destruct (C _ _ H). auto.
Qed.
Print Assumptions addr_texts_partial.
Example addr_texts_ex : let ntop := fun _ _ => text "127.0.0.1" in
  stored AF_INET [Some 31; Some 144; Some 127; Some 0; Some 0; Some 1] /\
  addr_str ntop (inl (AF_INET, [Some 31; Some 144; Some 127; Some 0; Some 0; Some 1])) (repeat 7 16) 16 = Ok (text "127.0.0.1:8080" ++ [0; 7], true) /\
  addr_str ntop (inl (AF_INET, [Some 31; Some 144; Some 127; Some 0; Some 0; Some 1])) (repeat 7 16) 5 = Ok (text "127." ++ [0] ++ repeat 7 11, true) /\
  stored AF_UNIX (map Some (text "/s") ++ [Some 0; None]) /\ addr_str ntop (inl (AF_UNIX, map Some (text "/s") ++ [Some 0; None])) (repeat 7 4) 4 = Ok (text "/s" ++ [0; 7], true).
Proof.
  cbv zeta. split; [left; split; [now left|]; do 3 eexists; split; [reflexivity|lia]|]. split; [vm_compute; reflexivity|]. split; [vm_compute; reflexivity|]. split; [|vm_compute; reflexivity].
  right. split; [reflexivity|]. exists (text "/s"), [None]. split; [reflexivity|]. unfold nonul; vm_compute; intuition discriminate.
Qed.
(** For a Unix socket without name (a connecting one, or the peer of one) the system stores the family only: the text is made from
    memory nobody wrote.  With a buffer of length 0 a byte is written nevertheless. *)
Theorem addr_texts_refuted :
  (exists ntop buf, zlen buf = 128 /\ addr_str ntop (inl (AF_UNIX, repeat None 126)) buf 128 = UB) /\
  (exists ntop fam st, stored fam st /\ addr_str ntop (inl (fam, st)) [] 0 = UB).
Proof.
  split; [exists (fun _ _ => []), (repeat 7 128); split; reflexivity|]. exists (fun _ _ => []), AF_UNIX, [Some 0]. split; [|reflexivity]. right. split; [reflexivity|]. exists [], []. split; [reflexivity|]. intros [].
Qed.
Print Assumptions addr_texts_refuted.

(** sc_sock_print: both texts (each cut to 127 bytes; empty when unknown) in the form "Local(...), Remote(...) ", cut to fit. *)
Definition end_text (ntop : Z -> storage -> list Z) (a : (Z * storage) + Z) (t : list Z) : Prop :=
  match a with inl (fam, st) => exists u, addr_text ntop fam st u /\ t = firstn 127 u | inr _ => t = [] end.
Lemma snprintf_cut buf len t : 0 < len <= zlen buf -> exists b', snprintf buf len t = Ok (b', zlen t) /\ holds_cut buf b' len t.
Proof.
  intro H. destruct (snprintf_ok buf len t ltac:(lia)) as (b' & E & _ & C1 & C2 & _). exists b'. split; [exact E|]. unfold holds_cut. destruct (Z.lt_ge_cases (zlen t) len) as [Ht|Ht].
  - rewrite (C1 Ht). rewrite firstn_all2 by (unfold zlen in Ht; lia). reflexivity.
  - rewrite C2 by lia. replace (length (firstn (Z.to_nat (len - 1)) t) + 1)%nat with (Z.to_nat len) by (rewrite firstn_length; unfold zlen in Ht; lia). reflexivity.
Qed.
Theorem sock_print_text : forall (ntop : Z -> storage -> list Z) (a b : (Z * storage) + Z) (l0 r0 buf : list Z) (len : Z),
  (forall fam st, a = inl (fam, st) -> stored fam st) -> (forall fam st, b = inl (fam, st) -> stored fam st) -> (forall fam st, nonul (ntop fam st)) ->
  zlen l0 = 128 -> zlen r0 = 128 -> 0 < len <= zlen buf ->
  exists lt rt b', end_text ntop a lt /\ end_text ntop b rt /\ sock_print ntop a b l0 r0 buf len = Ok b' /\
    holds_cut buf b' len (text "Local(" ++ lt ++ text "), Remote(" ++ rt ++ text ") ").
Proof.
  intros ntop a b l0 r0 buf len Ha Hb Hn Hl Hr Hbuf.
  assert (G : forall c x0, (forall fam st, c = inl (fam, st) -> stored fam st) -> zlen x0 = 128 -> exists x1 bb t, addr_str ntop c x0 128 = Ok (x1, bb) /\ cstring x1 = Ok t /\ end_text ntop c t).
  { intros c x0 Hc Hx. destruct (addr_texts_partial ntop c x0 128 Hc ltac:(lia)) as (x1 & E & _ & _ & D).
    assert (K : exists t, holds_cut x0 x1 128 t /\ nonul t /\ end_text ntop c (firstn 127 t)).
    { destruct c as [[fam st]|e]; [|exists []; split; [exact D|]; split; [intros []|reflexivity]]. destruct D as (t & T & D). exists t. split; [exact D|]. split; [|exists t; auto].
      destruct T as [(_ & h & l & r & d & _ & _ & _ & (Dd & _) & ->)|(_ & r & _ & T)]; [|exact T]. apply nonul_app. split; [apply Hn|]. apply nonul_cons. split; [discriminate|].
      intro I. rewrite Forall_forall in Dd. specialize (Dd 0 I). discriminate. }
    destruct K as (t & -> & N & T). exists (firstn 127 t ++ 0 :: skipn (length (firstn 127 t) + 1) x0). do 2 eexists. split; [exact E|]. split; [apply cstring_ok; now apply nonul_firstn|exact T]. }
  unfold sock_print. destruct (G a l0 Ha Hl) as (x1 & b1 & lt & -> & C1 & T1). cbn [bind]. destruct (G b r0 Hb Hr) as (x2 & b2 & rt & -> & C2 & T2). cbn [bind]. rewrite C1, C2. cbn [bind]. unfold print_parts.
  destruct (snprintf_cut buf len (text "Local(" ++ lt ++ text "), Remote(" ++ rt ++ text ") ") Hbuf) as (b' & E & C).
  change [76; 111; 99; 97; 108; 40] with (text "Local("). change [41; 44; 32; 82; 101; 109; 111; 116; 101; 40] with (text "), Remote("). change [41; 32] with (text ") "). rewrite E. cbn [bind]. eauto 8.
Qed.
Print Assumptions sock_print_text.
Example sock_print_text_ex : sock_print (fun _ _ => text "1.2.3.4") (inl (AF_INET, [Some 0; Some 80])) (inr 107) (repeat 7 128) (repeat 7 128) (repeat 7 64) 64 =
  Ok (text "Local(1.2.3.4:80), Remote() " ++ [0] ++ repeat 7 35).
Proof. vm_compute. reflexivity. Qed.

(** ** C90: the notification of systemd *)

(** The message goes, in one datagram, to the socket the environment names (an abstract one for a leading '@'), over a descriptor that is
    closed exactly once; the result is 0 exactly when it was sent.  Without a usable name nothing is done and errno is EINVAL.
    Missing: names of 108 bytes and more, for which it is false (notify_systemd_refuted). *)
Theorem notify_systemd_partial : forall (msg r : list Z), nonul msg ->
  (forall sk sd, notify (msg ++ 0 :: r) None sk sd = Ok ([], -1, Some EINVAL)) /\
  (forall (name q : list Z) (sk sd : Z + Z), nonul name -> zlen name < 108 ->
    let good := 2 <= zlen name /\ (hd 0 name = 64 \/ hd 0 name = 47) in
    (~ good -> notify (msg ++ 0 :: r) (Some (name ++ 0 :: q)) sk sd = Ok ([], -1, Some EINVAL)) /\
    (good -> forall e, sk = inr e -> notify (msg ++ 0 :: r) (Some (name ++ 0 :: q)) sk sd = Ok ([], -1, None)) /\
    (good -> forall fd, sk = inl fd -> exists rc, notify (msg ++ 0 :: r) (Some (name ++ 0 :: q)) sk sd =
       Ok ([NOpen fd; NSend fd (if hd 0 name =? 64 then 0 :: tl name else name) msg; NClose fd], rc, None) /\ (rc = 0 <-> exists n, sd = inl n) /\ (rc <> 0 -> rc = -1))).
Proof.
  intros msg r Hm. unfold notify. rewrite cstring_ok by exact Hm. cbn [bind]. split; [reflexivity|]. intros name q sk sd Hn Hl. cbv zeta.
  destruct name as [|c0 [|c1 name]].
  - split; [reflexivity|]. split; intros [G _]; cbn in G; lia.
  - apply nonul_cons in Hn as [H0 _]. split; [|split; intros [G _]; cbn in G; lia]. intros _.
    change (zload ([c0] ++ 0 :: q) 0) with (Ok c0). cbn [bind]. change (zload ([c0] ++ 0 :: q) 1) with (Ok 0). cbn [bind]. destruct (negb (c0 =? 64) && negb (c0 =? 47)); reflexivity.
  - pose proof Hn as Hn'. apply nonul_cons in Hn as [H0 Hn]. apply nonul_cons in Hn as [H1 Hn]. cbn [hd tl].
    change (zload ((c0 :: c1 :: name) ++ 0 :: q) 0) with (Ok c0). cbn [bind]. change (zload ((c0 :: c1 :: name) ++ 0 :: q) 1) with (Ok c1). cbn [bind].
    replace (c1 =? 0) with false by lia. assert (L2 : 2 <= zlen (c0 :: c1 :: name)) by (rewrite !zlen_cons; pose proof (zlen_nonneg name); lia).
    split; [|split].
    + intro NG. replace (negb (c0 =? 64) && negb (c0 =? 47)) with true; [reflexivity|]. symmetry. apply andb_true_iff. split; apply negb_true_iff, Z.eqb_neq; intro E; apply NG; auto.
    + intros [_ G] e ->. replace (negb (c0 =? 64) && negb (c0 =? 47)) with false by (destruct G as [->| ->]; reflexivity). reflexivity.
    + intros [_ G] fd ->. replace (negb (c0 =? 64) && negb (c0 =? 47)) with false by (destruct G as [->| ->]; reflexivity). cbn [bind].
      set (s := c0 :: c1 :: name) in *. unfold strncpy. rewrite upto_nul_ok by exact Hn'. cbn [bind]. change (SUN_PATH - 1 <=? zlen (repeat 0 (Z.to_nat SUN_PATH))) with true. cbv iota. cbn [bind].
      rewrite firstn_all2 by (unfold SUN_PATH; unfold zlen in Hl; lia). set (tail := repeat 0 (Z.to_nat (SUN_PATH - 1) - length s) ++ skipn (Z.to_nat (SUN_PATH - 1)) (repeat 0 (Z.to_nat SUN_PATH))).
      change (zload (s ++ tail) 0) with (Ok c0). cbn [bind]. rewrite strlen_ok by exact Hn'.
      assert (P : (if c0 =? 64 then zput (s ++ tail) 0 0 else Ok (s ++ tail)) = Ok ((if c0 =? 64 then 0 :: c1 :: name else s) ++ tail)).
      { destruct (c0 =? 64); [|reflexivity]. unfold zput. replace ((0 <=? 0) && (0 <? zlen (s ++ tail))) with true; [reflexivity|]. rewrite zlen_app. pose proof (zlen_nonneg tail). lia. }
      rewrite P. cbn [bind]. assert (U : u32 (2 + zlen s) = 2 + zlen s) by (apply Z.mod_small; lia). rewrite U. unfold SUN_PATH. replace (2 + 108 <? 2 + zlen s) with false by lia.
      replace (2 + zlen s - 2) with (zlen (if c0 =? 64 then 0 :: c1 :: name else s)) by (destruct (c0 =? 64); unfold s; rewrite !zlen_cons; lia).
      pose proof (bytes_mid [] (if c0 =? 64 then 0 :: c1 :: name else s) tail) as B. cbn [app] in B. change (zlen (@nil Z)) with 0 in B. rewrite B. cbn [bind].
      eexists. split; [reflexivity|]. destruct sd as [n|e]; split; [split; eauto|congruence|split; [discriminate|intros [n E]; discriminate]|reflexivity].
Qed.
Print Assumptions notify_systemd_partial.
Example notify_systemd_ex : nonul (text "READY=1") /\ nonul (text "@x") /\
  notify (text "READY=1" ++ [0]) (Some (text "@x" ++ [0])) (inl 4) (inl 7) = Ok ([NOpen 4; NSend 4 [0; 120] (text "READY=1"); NClose 4], 0, None) /\
  notify (text "READY=1" ++ [0]) (Some (text "/run/x" ++ [0])) (inl 4) (inr 111) = Ok ([NOpen 4; NSend 4 (text "/run/x") (text "READY=1"); NClose 4], -1, None) /\
  notify (text "READY=1" ++ [0]) (Some (text "x/" ++ [0])) (inl 4) (inl 7) = Ok ([], -1, Some EINVAL).
Proof. split; [unfold nonul; vm_compute; intuition discriminate|]. split; [unfold nonul; vm_compute; intuition discriminate|]. repeat split; vm_compute; reflexivity. Qed.
(** Longer names: still one datagram over a descriptor that is closed, to the first 107 bytes of the name and a NUL. *)
Theorem notify_systemd_long : forall (msg r name q : list Z) (fd : Z) (sd : Z + Z), nonul msg -> nonul name -> 108 <= zlen name < 2^32 - 2 ->
  hd 0 name = 64 \/ hd 0 name = 47 ->
  notify (msg ++ 0 :: r) (Some (name ++ 0 :: q)) (inl fd) sd =
    Ok ([NOpen fd; NSend fd ((if hd 0 name =? 64 then 0 :: firstn 106 (tl name) else firstn 107 name) ++ [0]) msg; NClose fd],
        match sd with inl _ => 0 | inr _ => -1 end, None).
Proof.
  intros msg r name q fd sd Hm Hn Hl G. unfold notify. rewrite cstring_ok by exact Hm. cbn [bind].
  destruct name as [|c0 [|c1 name]]; [cbn in Hl; lia|cbn in Hl; lia|]. cbn [hd tl] in *.
  pose proof Hn as Hn'. apply nonul_cons in Hn as [H0 Hn]. apply nonul_cons in Hn as [H1 Hn].
  change (zload ((c0 :: c1 :: name) ++ 0 :: q) 0) with (Ok c0). cbn [bind]. change (zload ((c0 :: c1 :: name) ++ 0 :: q) 1) with (Ok c1). cbn [bind].
  replace (c1 =? 0) with false by lia. replace (negb (c0 =? 64) && negb (c0 =? 47)) with false by (destruct G as [-> | ->]; reflexivity). cbn [bind].
  set (s := c0 :: c1 :: name) in *. unfold strncpy. rewrite upto_nul_ok by exact Hn'. cbn [bind].
  change (SUN_PATH - 1 <=? zlen (repeat 0 (Z.to_nat SUN_PATH))) with true. cbv iota. cbn [bind].
  change (Z.to_nat (SUN_PATH - 1)) with 107%nat. change (Z.to_nat SUN_PATH) with 108%nat.
  assert (L : length (firstn 107 s) = 107%nat) by (rewrite firstn_length; unfold zlen in Hl; lia).
  rewrite L. change (repeat 0 (107 - 107)) with (@nil Z). change (skipn 107 (repeat 0 108)) with [0]. cbn [app].
  rewrite strlen_ok by exact Hn'. change (firstn 107 s) with (c0 :: c1 :: firstn 105 name). cbn [app].
  change (zload (c0 :: c1 :: firstn 105 name ++ [0]) 0) with (Ok c0). cbn [bind].
  set (t := c1 :: firstn 105 name ++ [0]).
  assert (P : (if c0 =? 64 then zput (c0 :: t) 0 0 else Ok (c0 :: t)) = Ok (if c0 =? 64 then 0 :: t else c0 :: t)).
  { destruct (c0 =? 64); [|reflexivity]. unfold zput. replace ((0 <=? 0) && (0 <? zlen (c0 :: t))) with true; [reflexivity|].
    rewrite zlen_cons. pose proof (zlen_nonneg t). lia. }
  rewrite P. cbn [bind]. assert (U : u32 (2 + zlen s) = 2 + zlen s) by (apply Z.mod_small; lia). rewrite U. unfold SUN_PATH.
  assert (Z1 : zlen t = 107).
  { unfold t, zlen. cbn [length]. rewrite app_length, firstn_length. cbn [length]. unfold s, zlen in Hl. cbn [length] in Hl. lia. }
  replace ((if 2 + 108 <? 2 + zlen s then 2 + 108 else 2 + zlen s) - 2) with (zlen (if c0 =? 64 then 0 :: t else c0 :: t))
    by (destruct (c0 =? 64); rewrite zlen_cons, Z1; destruct (2 + 108 <? 2 + zlen s) eqn:E; lia).
  pose proof (bytes_mid [] (if c0 =? 64 then 0 :: t else c0 :: t) []) as B. cbn [app] in B. rewrite app_nil_r in B. change (zlen (@nil Z)) with 0 in B. rewrite B. cbn [bind].
  unfold t, s. destruct (c0 =? 64); reflexivity.
Qed.
Print Assumptions notify_systemd_long.
Example notify_systemd_long_ex : nonul (64 :: repeat 97 120) /\ zlen (64 :: repeat 97 120) = 121 /\
  notify [0] (Some (64 :: repeat 97 120 ++ [0])) (inl 4) (inl 0) = Ok ([NOpen 4; NSend 4 (0 :: repeat 97 106 ++ [0]) []; NClose 4], 0, None).
Proof. split; [unfold nonul; vm_compute; intuition discriminate|]. split; vm_compute; reflexivity. Qed.
(** A name that does not fit is cut: the message goes to another socket. *)
Theorem notify_systemd_refuted : exists (name : list Z) (to : list Z), nonul name /\ zlen name = 108 /\ hd 0 name = 47 /\
  notify [0] (Some (name ++ [0])) (inl 4) (inl 0) = Ok ([NOpen 4; NSend 4 to []; NClose 4], 0, None) /\ to = firstn 107 name ++ [0].
Proof. exists (47 :: repeat 97 107). eexists. split; [unfold nonul; vm_compute; intuition discriminate|]. split; [reflexivity|]. split; [reflexivity|]. split; vm_compute; reflexivity. Qed.
Print Assumptions notify_systemd_refuted.
