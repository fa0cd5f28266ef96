(** C131: arguments of the string functions that point into the string itself. *)
From Coq Require Import ZifyBool ZifyNat.
From Verif Require Import Base CStr StrModel StrSpec StrProofs StrSelfModel.

(** The string with contents [t]. *)
Definition as_str (t : list Z) : sstr := mk_sstr (zlen t) (t ++ [0]).

Lemma c_at_ok a b tl : nonul b -> c_at (a ++ b ++ 0 :: tl) (zlen a) = Ok b.
Proof.
  intro H. unfold c_at. rewrite from_app. cbn [bind]. rewrite strlen_ok by exact H. cbn [bind]. f_equal.
  apply (zslice_mid [] b (0 :: tl)).
Qed.

(** C131: with a text [a ++ b] and an argument that points at [b], set, append (if the block stays in place) and trim do what
    they do with a copy of [b]. *)
Theorem str_self_partial : forall a b (junk : alloc), nonul b -> zlen (a ++ b) <= STR_MAX ->
  set_self (as_str (a ++ b)) (zlen a) junk = str_set (Some (as_str (a ++ b))) (Some b) junk /\
  append_self (as_str (a ++ b)) (zlen a) false junk = str_append (Some (as_str (a ++ b))) b junk /\
  trim_self (as_str (a ++ b)) (zlen a) junk = str_trim (Some (as_str (a ++ b))) b junk.
Proof.
  intros a b junk Hb Ht. pose proof (zlen_nonneg a). pose proof (zlen_nonneg b). rewrite zlen_app in Ht. unfold STR_MAX in Ht.
  assert (Ea : (a ++ b) ++ [0] = a ++ b ++ 0 :: []) by (now rewrite <- app_assoc).
  split; [|split].
  - unfold set_self, str_set, as_str. cbn [sbuf]. rewrite Ea, from_app. cbn [bind]. rewrite strlen_ok by exact Hb. cbn [bind].
    rewrite create_ok by exact Hb. destruct (STR_MAX <? zlen b); [reflexivity|]. rewrite u32_small by lia. now rewrite create_len_ok by lia.
  - unfold append_self, as_str. rewrite append_ok; [|exact Hb|lia|rewrite zlen_app; unfold STR_MAX; lia].
    cbn [sbuf slen]. rewrite Ea, from_app. cbn [bind]. rewrite strlen_ok by exact Hb. cbn [bind].
    rewrite zlen_app. unfold STR_MAX in *. rewrite (u64_small (2 ^ 32 - 1 - 4 - 1 - (zlen a + zlen b))) by lia.
    replace (2 ^ 32 - 1 - 4 - 1 - (zlen a + zlen b) <? zlen b) with (2 ^ 32 - 1 - 4 - 1 <? zlen b + (zlen a + zlen b)) by lia.
    destruct (2 ^ 32 - 1 - 4 - 1 <? zlen b + (zlen a + zlen b)) eqn:E; [reflexivity|].
    unfold str_bytes. rewrite (u64_small (zlen a + zlen b + zlen b)) by lia. rewrite u64_small by lia.
    unfold realloc. destruct junk as [junk|]; cbn [option_map]; [|reflexivity].
    set (m := firstn _ _).
    assert (Em : exists z, m = a ++ b ++ z /\ zlen z = zlen b + 1).
    { unfold m. exists (firstn (Z.to_nat (zlen b + 1)) ([0] ++ junk ++ repeat 0 (Z.to_nat (zlen a + zlen b + zlen b + 4 + 1 - 4)))). split.
      - set (J := junk ++ _). replace ((a ++ b ++ [0]) ++ J) with ((a ++ b) ++ [0] ++ J) by (now rewrite <- !app_assoc). rewrite (app_assoc a b (firstn _ _)).
        rewrite firstn_app.
        rewrite firstn_all2 by (rewrite app_length; unfold zlen in *; lia). f_equal. f_equal. rewrite app_length. unfold zlen. lia.
      - rewrite zlen_firstn, !zlen_app, zlen_repeat. change (zlen [0]) with 1. pose proof (zlen_nonneg junk). lia. }
    clearbody m. destruct Em as (z & -> & Hz). cbn [bind].
    rewrite bytes_mid. cbn [bind]. replace ((0 <? zlen b) && (zlen a <? zlen a + zlen b + zlen b) && (zlen a + zlen b <? zlen a + zlen b)) with false by lia.
    assert (exists z1 x, z = z1 ++ [x]) as (z1 & x & ->).
    { destruct (@exists_last _ z) as (z1 & x & ->); [intros ->; change (zlen (@nil Z)) with 0 in Hz; lia|]. eauto. }
    rewrite zlen_app in Hz. change (zlen [x]) with 1 in Hz. rewrite (app_assoc a b), <- zlen_app.
    rewrite memcpy_mid by lia. cbn [bind]. rewrite zlen_app. rewrite (u32_small (zlen b)) by lia. rewrite u32_small by lia.
    rewrite (app_assoc (a ++ b)). replace (zlen a + zlen b + zlen b) with (zlen ((a ++ b) ++ b)) by (rewrite !zlen_app; lia).
    rewrite zput_mid. reflexivity.
  - unfold trim_self, as_str. cbn [sbuf]. rewrite Ea. rewrite c_at_ok by exact Hb. reflexivity.
Qed.
Print Assumptions str_self_partial.

Lemma tail_eq {A} (a b c d : list A) : a ++ b = c ++ d -> zlen b = zlen d -> a = c /\ b = d.
Proof.
  intros E H. assert (L : length a = length c). { apply (f_equal (@length A)) in E. rewrite !app_length in E. unfold zlen in H. lia. }
  revert c L E. induction a as [|x a IH]; intros [|y c] L E; try discriminate; [auto|]. cbn in E. injection E as -> E.
  destruct (IH c) as [-> ->]; auto.
Qed.
Lemma no_find pat pre c tl : nonul pat -> nonul c -> zlen c < zlen pat -> find (pre ++ c ++ 0 :: tl) (zlen pre) pat = Ok None.
Proof.
  intros Hp Hc Hl. destruct (find_ok pat pre c tl Hp Hc) as [(a & b & -> & _ & _)|[_ E]]; [|exact E].
  rewrite !zlen_app in Hl. pose proof (zlen_nonneg a). pose proof (zlen_nonneg b). lia.
Qed.
Lemma split_at (t : list Z) n : 0 <= n <= zlen t -> exists a b, t = a ++ b /\ zlen a = n.
Proof.
  intro H. exists (firstn (Z.to_nat n) t), (skipn (Z.to_nat n) t). split; [now rewrite firstn_skipn|]. rewrite zlen_firstn. lia.
Qed.

Lemma self_same w pat d : nonul pat -> pat <> [] -> nonul w -> zlen w = zlen pat -> 0 <= d ->
  forall fuel pre c, nonul (pre ++ c) -> zlen (pre ++ c) = d + zlen pat ->
  ((exists a, pre ++ c = a ++ pat) \/ zlen c < zlen pat) ->
  rep_same_self fuel (pre ++ c ++ [0]) (zlen pre) d (zlen pat) w = rep_same fuel (pre ++ c ++ [0]) (zlen pre) pat w.
Proof.
  intros Hp Hne Hw Hl Hd. induction fuel as [|fuel IH]; intros pre c Hn Hz Hc; [reflexivity|]. cbn [rep_same_self rep_same].
  destruct (split_at (pre ++ c) d) as (u & q & E & Hu); [pose proof (zlen_nonneg pat); lia|].
  assert (Hq : zlen q = zlen pat). { rewrite E, zlen_app in Hz. lia. }
  assert (Nq : nonul q). { rewrite E in Hn. apply nonul_app in Hn. tauto. }
  assert (Ec : c_at (pre ++ c ++ [0]) d = Ok q). { rewrite app_assoc, E, <- app_assoc, <- Hu. now apply c_at_ok. }
  rewrite Ec. cbn [bind]. pose proof (proj1 (nonul_app pre c) Hn) as [Hpre Hcc].
  destruct Hc as [(a & Ea)|Hc].
  - rewrite E in Ea. apply tail_eq in Ea as [_ ->]; [|exact Hq].
    destruct (find_ok pat pre c [] Hp Hcc) as [(x & y & -> & -> & _)|[_ ->]]; [|reflexivity]. cbn [bind].
    replace (pre ++ (x ++ pat ++ y) ++ [0]) with ((pre ++ x) ++ pat ++ (y ++ [0])) by (now rewrite <- !app_assoc).
    rewrite <- zlen_app. rewrite memcpy_mid by exact Hl. cbn [bind].
    replace ((pre ++ x) ++ w ++ y ++ [0]) with (((pre ++ x) ++ w) ++ y ++ [0]) by (now rewrite <- !app_assoc).
    replace (zlen (pre ++ x) + zlen pat) with (zlen ((pre ++ x) ++ w)) by (rewrite (zlen_app (pre ++ x)); lia).
    rewrite !nonul_app in Hcc. apply IH.
    + rewrite !nonul_app. tauto.
    + rewrite !zlen_app in *. lia.
    + destruct (Z_lt_le_dec (zlen y) (zlen pat)) as [H|H]; [now right|left].
      destruct (split_at y (zlen y - zlen pat)) as (y1 & y2 & -> & Hy); [pose proof (zlen_nonneg pat); lia|].
      rewrite zlen_app in *. exists (((pre ++ x) ++ w) ++ y1).
      assert (E' : (pre ++ x ++ pat ++ y1) ++ y2 = u ++ pat) by (rewrite <- E, <- !app_assoc; reflexivity).
      apply tail_eq in E' as [_ ->]; [now rewrite <- !app_assoc|lia].
  - rewrite (no_find q pre c []) by (auto; lia). rewrite (no_find pat pre c []) by auto. reflexivity.
Qed.

(** C131: a pattern that is the end of the string: as with a copy of the pattern, although the loop changes the pattern. *)
Theorem str_replace_self : forall a pat w fuel (junk : alloc), nonul (a ++ pat) -> pat <> [] -> nonul w ->
  replace_self fuel (as_str (a ++ pat)) (zlen a) w junk = str_replace fuel (Some (as_str (a ++ pat))) pat w junk.
Proof.
  intros a pat w fuel junk Hn Hne Hw. pose proof (proj1 (nonul_app a pat) Hn) as [Ha Hp].
  assert (Ea : (a ++ pat) ++ [0] = a ++ pat ++ 0 :: []) by (now rewrite <- app_assoc).
  unfold replace_self, as_str. cbn [sbuf slen]. rewrite Ea, c_at_ok by exact Hp. cbn [bind].
  destruct ((2 ^ 32 - 1 <=? zlen pat) || (2 ^ 32 - 1 <=? zlen w)) eqn:E1.
  - unfold str_replace. now rewrite E1.
  - destruct (zlen w - zlen pat =? 0) eqn:E2; [|reflexivity]. unfold str_replace. rewrite E1, E2. cbn [sbuf slen].
    pose proof (self_same w pat (zlen a) Hp Hne Hw ltac:(lia) (zlen_nonneg a) fuel [] (a ++ pat) Hn) as H.
    cbn [app] in H. rewrite <- app_assoc in H. change (zlen (@nil Z)) with 0 in H. rewrite H; [reflexivity|apply zlen_app|left; eauto].
Qed.
Print Assumptions str_replace_self.

(** C131: a replacement that is the end of the string: as with a copy, if it is longer or shorter than the pattern. *)
Theorem str_replace_by_self_partial : forall a w pat fuel (junk : alloc), nonul (a ++ w) -> zlen w <> zlen pat ->
  replace_by_self fuel (as_str (a ++ w)) (zlen a) pat junk = str_replace fuel (Some (as_str (a ++ w))) pat w junk.
Proof.
  intros a w pat fuel junk Hn Hl. pose proof (proj1 (nonul_app a w) Hn) as [Ha Hw].
  assert (Ea : (a ++ w) ++ [0] = a ++ w ++ 0 :: []) by (now rewrite <- app_assoc).
  unfold replace_by_self, as_str. cbn [sbuf slen]. rewrite Ea, c_at_ok by exact Hw. cbn [bind].
  destruct ((2 ^ 32 - 1 <=? zlen pat) || (2 ^ 32 - 1 <=? zlen w)) eqn:E1.
  - unfold str_replace. now rewrite E1.
  - replace (zlen w - zlen pat =? 0) with false by lia. reflexivity.
Qed.
Print Assumptions str_replace_by_self_partial.

(** "abab": set to "bab"; doubled; "ab" replaced by "xy" with the pattern taken from its end; "a" replaced by its end. *)
Example str_self_ex : let t := [97; 98; 97; 98] in
  nonul t /\ set_self (as_str t) 1 (Some []) = Ok (Some (as_str [98; 97; 98]), true) /\
  append_self (as_str t) 0 false (Some []) = Ok (Some (as_str (t ++ t)), true) /\
  trim_self (as_str t) 3 (Some []) = Ok (Some (as_str [97; 98; 97]), true) /\
  replace_self 9 (as_str t) 2 [120; 121] (Some []) = Ok (Some (as_str [120; 121; 120; 121]), true) /\
  replace_by_self 9 (as_str t) 2 [97] (Some []) = Ok (Some (as_str [97; 98; 98; 97; 98; 98]), true).
Proof. split; [cbv; intuition discriminate|]. repeat split; vm_compute; reflexivity. Qed.

(** C131, refuted: appending a string to itself reads released memory whenever realloc moves the block. *)
Theorem str_append_self_refuted : forall a b junk, nonul b -> zlen (a ++ b) + zlen b <= STR_MAX ->
  append_self (as_str (a ++ b)) (zlen a) true (Some junk) = UB.
Proof.
  intros a b junk Hb Ht. rewrite zlen_app in Ht. pose proof (zlen_nonneg a). pose proof (zlen_nonneg b).
  unfold append_self, as_str. cbn [sbuf slen]. rewrite <- app_assoc, from_app. cbn [bind]. rewrite (strlen_ok b []) by exact Hb. cbn [bind].
  rewrite zlen_app. rewrite u64_small by (unfold STR_MAX in *; lia). replace (STR_MAX - (zlen a + zlen b) <? zlen b) with false by lia. reflexivity.
Qed.
Print Assumptions str_append_self_refuted.
(** Refuted: a replacement of the pattern's length that is part of the string: for every text [w] (here as the whole string and as
    the pattern) memcpy gets overlapping areas. *)
Theorem str_replace_by_self_refuted : forall w junk, nonul w -> w <> [] -> zlen w < 2^32 - 1 ->
  replace_by_self (length w + 1) (as_str w) 0 w junk = UB.
Proof.
  intros w junk Hn Hne Hl. unfold replace_by_self, as_str. cbn [sbuf slen].
  pose proof (c_at_ok [] w [] Hn) as Ec. cbn [app] in Ec. change (zlen (@nil Z)) with 0 in Ec. rewrite Ec. cbn [bind].
  replace ((2 ^ 32 - 1 <=? zlen w) || (2 ^ 32 - 1 <=? zlen w)) with false by lia. rewrite Z.sub_diag. cbn [Z.eqb].
  rewrite Nat.add_1_r. cbn [rep_same_by_self].
  destruct (find_ok w [] w [] Hn Hn) as [(x & y & E & F & _)|[H _]].
  - cbn [app] in F. change (zlen (@nil Z)) with 0 in F. rewrite F. cbn [bind].
    assert (zlen x = 0). { pose proof (f_equal zlen E) as L. rewrite !zlen_app in L. pose proof (zlen_nonneg x). pose proof (zlen_nonneg y). lia. }
    rewrite bytes_at_ok by (rewrite ?zlen_app; change (zlen [0]) with 1; pose proof (zlen_nonneg w); lia). cbn [bind].
    assert (0 < zlen w). { destruct w; [contradiction|]. rewrite zlen_cons. pose proof (zlen_nonneg w). lia. }
    replace ((0 <? zlen w) && (0 + zlen x <? 0 + zlen w) && (0 <? 0 + zlen x + zlen w)) with true by lia. reflexivity.
  - exfalso. apply (H 0). exists [], []. rewrite app_nil_r. auto.
Qed.
Print Assumptions str_replace_by_self_refuted.
