(** C157, C158: sc_mmap_init of memory-map/sc_mmap.c on macOS. *)
From Verif Require Import Base Num CStr StrSpec StrProofs MmapModel MmapProps MacMapModel.
From Coq Require Import ZifyBool.

(** ** The loop *)

Lemma put_nul_len f p : 0 <= p -> zlen (put_nul f p) = Z.max (zlen f) (p + 1).
Proof.
  intros H. unfold put_nul. rewrite !zlen_app, zlen_firstn, zlen_skipn, zlen_app, zlen_repeat, zlen_cons, zlen_nil. pose proof (zlen_nonneg f). lia.
Qed.
Lemma put_nul_get f p i : 0 <= p -> 0 <= i ->
  zget (put_nul f p) i = if i =? p then Some 0 else if i <? zlen f then zget f i else if i <? p then Some 0 else None.
Proof.
  intros H Hi. unfold put_nul. set (pad := f ++ repeat 0 (Z.to_nat (p - zlen f))). pose proof (zlen_nonneg f).
  assert (Lp : zlen pad = Z.max (zlen f) p) by (unfold pad; rewrite zlen_app, zlen_repeat; lia).
  assert (Lf : zlen (firstn (Z.to_nat p) pad) = p) by (rewrite zlen_firstn; lia).
  rewrite zget_app, Lf. destruct (i <? p) eqn:E.
  - rewrite zget_firstn. destruct (i <? Z.of_nat (Z.to_nat p)) eqn:E1; [|lia]. unfold pad. rewrite zget_app. destruct (i =? p) eqn:E2; [lia|].
    destruct (i <? zlen f) eqn:E3; [reflexivity|]. rewrite zget_repeat. destruct ((0 <=? i - zlen f) && (i - zlen f <? Z.of_nat (Z.to_nat (p - zlen f)))) eqn:E4; [reflexivity|lia].
  - destruct (i =? p) eqn:E2; [replace (i - p) with 0 by lia; reflexivity|]. cbn [app]. rewrite zget_consS by lia. rewrite zget_skipn by lia.
    replace (i - p - 1 + Z.of_nat (Z.to_nat (p + 1))) with i by lia. destruct (i <? zlen f) eqn:E3; [reflexivity|]. apply zget_None. lia.
Qed.
(** The blocks the loop goes through, and the last byte of each below [len]. *)
Definition blocks (len block k : Z) : nat := Z.to_nat ((len + block - 1) / block - k).
Definition spots (len block k : Z) : list Z := map (fun i => Z.min ((k + Z.of_nat i) * block + block - 1) (len - 1)) (seq 0 (blocks len block k)).
Lemma blocks_pos len block k : 0 < block -> (k * block < len <-> k < (len + block - 1) / block).
Proof. intros H. pose proof (Z.div_mod (len + block - 1) block). pose proof (Z.mod_pos_bound (len + block - 1) block H). nia. Qed.
Lemma spots_step len block k : 0 < block -> 0 <= k -> k * block < len -> spots len block k = Z.min (k * block + block - 1) (len - 1) :: spots len block (k + 1).
Proof.
  intros H Hk L. apply (blocks_pos _ _ _ H) in L. unfold spots, blocks. destruct (Z.to_nat ((len + block - 1) / block - k)) eqn:E; [lia|].
  replace (Z.to_nat ((len + block - 1) / block - (k + 1))) with n by lia. cbn [seq map]. f_equal; [f_equal; lia|]. rewrite <- seq_shift, map_map. apply map_ext. intros i. f_equal. lia.
Qed.
Lemma spots_end len block k : 0 < block -> len <= k * block -> spots len block k = [].
Proof. intros H L. unfold spots, blocks. pose proof (blocks_pos len block k H). replace (Z.to_nat _) with 0%nat by lia. reflexivity. Qed.
Lemma grow_stop block len pos an errno f w : u64 (len + block - 1) <= pos -> mac_grow block len pos an errno f w = Ok (f, w, None).
Proof. intros H. destruct an; cbn; destruct (pos <? u64 (len + block - 1)) eqn:E; lia || reflexivity. Qed.
Lemma grow_step block len pos l n an errno f w : 0 <= pos -> pos < u64 (len + block - 1) ->
  mac_grow block len pos ((Good l, Good n) :: an) errno f w =
  let pos := if len <=? pos then u64 (len - 1) else pos in
  if n =? 1 then mac_grow block len (u64 (pos + block)) an errno (put_nul f pos) (w ++ [pos]) else Ok (f, w, Some errno).
Proof. intros H L. cbn. destruct (pos <? u64 (len + block - 1)) eqn:E; [reflexivity|lia]. Qed.
(** Every round is answered well: the spots are written, one after the other. *)
Lemma grow_run block len errno : 0 < block -> 0 <= len -> len + block - 1 < 2 ^ 64 -> forall an k f w f' w' r, 0 <= k ->
  mac_grow block len (k * block + block - 1) an errno f w = Ok (f', w', r) -> 
  (r = None -> w' = w ++ spots len block k /\ f' = fold_left put_nul (spots len block k) f) /\
  (forall e, r = Some e -> e = errno \/ exists x, In x an /\ (fst x = Bad e \/ snd x = Bad e)).
Proof.
  intros Hb Hl Hs. assert (Us : u64 (len + block - 1) = len + block - 1) by (apply u64_small; lia).
  induction an as [|[sk wr] an IH]; intros k f w f' w' r Hk E.
  - cbn in E. rewrite Us in E. destruct (k * block + block - 1 <? len + block - 1) eqn:L; [discriminate|]. injection E as <- <- <-. split; [|discriminate]. intros _. rewrite spots_end by lia. rewrite app_nil_r. auto.
  - destruct (Z.lt_ge_cases (k * block) len) as [L|L].
    2: { rewrite grow_stop in E by (rewrite Us; lia). injection E as <- <- <-. split; [|discriminate]. intros _. rewrite spots_end by lia. rewrite app_nil_r. auto. }
    destruct sk as [x|e].
    2: { cbn in E. rewrite Us in E. destruct (k * block + block - 1 <? len + block - 1) eqn:L'; [|lia]. injection E as <- <- <-. split; [discriminate|]. intros e' [= ->]. right. exists (Bad e', wr). split; [now left|now left]. }
    destruct wr as [n|e].
    2: { cbn in E. rewrite Us in E. destruct (k * block + block - 1 <? len + block - 1) eqn:L'; [|lia]. injection E as <- <- <-. split; [discriminate|]. intros e' [= ->]. right. exists (Good x, Bad e'). split; [now left|now right]. }
    rewrite grow_step in E by (rewrite ?Us; nia). cbv zeta in E. destruct (n =? 1) eqn:En.
    2: { injection E as <- <- <-. split; [discriminate|]. intros e' [= ->]. now left. }
    rewrite (u64_small (len - 1)) in E by lia. rewrite (spots_step len block k) by lia. cbn [fold_left].
    destruct (len <=? k * block + block - 1) eqn:Lp.
    + rewrite (u64_small (len - 1 + block)) in E by lia. rewrite grow_stop in E by (rewrite Us; lia). injection E as <- <- <-. split; [|discriminate]. intros _.
      rewrite spots_end by lia. replace (Z.min (k * block + block - 1) (len - 1)) with (len - 1) by lia. auto.
    + rewrite (u64_small (k * block + block - 1 + block)) in E by nia. replace (k * block + block - 1 + block) with ((k + 1) * block + block - 1) in E by lia.
      destruct (IH (k + 1) _ _ _ _ _ ltac:(lia) E) as [I1 I2]. split.
      * intros Hr. destruct (I1 Hr) as [-> ->]. rewrite <- app_assoc. cbn [app]. replace (Z.min (k * block + block - 1) (len - 1)) with (k * block + block - 1) by lia. auto.
      * intros e He. destruct (I2 e He) as [H|(y & Y1 & Y2)]; [now left|]. right. exists y. split; [now right|exact Y2].
Qed.
Lemma grow_total block len errno : 0 < block -> 0 <= len -> len + block - 1 < 2 ^ 64 -> forall an k f w, 0 <= k ->
  (forall x, In x an -> (exists l, fst x = Good l) /\ snd x = Good 1) -> (blocks len block k <= length an)%nat ->
  exists f' w', mac_grow block len (k * block + block - 1) an errno f w = Ok (f', w', None).
Proof.
  intros Hb Hl Hs. assert (Us : u64 (len + block - 1) = len + block - 1) by (apply u64_small; lia).
  induction an as [|[sk wr] an IH]; intros k f w Hk G L.
  - rewrite grow_stop; [eauto|]. rewrite Us. pose proof (blocks_pos len block k Hb). unfold blocks in L. cbn in L. lia.
  - destruct (Z.lt_ge_cases (k * block) len) as [Lk|Lk]; [|rewrite grow_stop by (rewrite Us; lia); eauto].
    destruct (G _ (or_introl eq_refl)) as [[x Ex] Ew]. cbn in Ex, Ew. subst sk wr. rewrite grow_step by (rewrite ?Us; nia). cbv zeta. rewrite Z.eqb_refl. rewrite (u64_small (len - 1)) by lia.
    destruct (len <=? k * block + block - 1) eqn:Lp; [rewrite (u64_small (len - 1 + block)) by lia; rewrite grow_stop by (rewrite Us; lia); eauto|].
    rewrite (u64_small (k * block + block - 1 + block)) by nia. replace (k * block + block - 1 + block) with ((k + 1) * block + block - 1) by lia.
    apply IH; [lia|intros; apply G; now right|]. apply (blocks_pos _ _ _ Hb) in Lk. unfold blocks in *. cbn in L. lia.
Qed.
Lemma spots_get block len : 0 < block -> 0 <= len -> forall n k f, blocks len block k = n -> 0 <= k -> k * block <= zlen f < k * block + block ->
  let g := fold_left put_nul (spots len block k) f in
  zlen g = Z.max (zlen f) len /\
  forall i, 0 <= i -> zget g i = if (i =? len - 1) && (k * block <? len) then Some 0 else if i <? zlen f then zget f i else if i <? len then Some 0 else None.
Proof.
  intros Hb Hl. induction n as [|n IH]; intros k f Hn Hk R g; subst g.
  - pose proof (blocks_pos len block k Hb) as P. unfold blocks in Hn. rewrite spots_end by lia. cbn [fold_left]. split; [lia|]. intros i Hi.
    destruct ((i =? len - 1) && (k * block <? len)) eqn:E; [lia|]. destruct (i <? zlen f) eqn:E1; [reflexivity|]. destruct (i <? len) eqn:E2; [lia|]. apply zget_None. lia.
  - pose proof (blocks_pos len block k Hb) as P. assert (L : k * block < len) by (unfold blocks in Hn; lia). rewrite spots_step by lia. cbn [fold_left].
    destruct (Z.lt_ge_cases (k * block + block - 1) len) as [Lp|Lp].
    + replace (Z.min (k * block + block - 1) (len - 1)) with (k * block + block - 1) by lia. set (p := k * block + block - 1) in *.
      assert (Zp : zlen (put_nul f p) = (k + 1) * block) by (rewrite put_nul_len by lia; lia).
      destruct (IH (k + 1) (put_nul f p)) as [I1 I2]; [unfold blocks in *; lia|lia|lia|]. split; [rewrite I1; lia|]. intros i Hi. rewrite I2 by exact Hi. rewrite Zp, put_nul_get by lia.
      destruct (i =? len - 1) eqn:E1, ((k + 1) * block <? len) eqn:E2, (k * block <? len) eqn:E3, (i <? (k + 1) * block) eqn:E4, (i =? p) eqn:E5, (i <? zlen f) eqn:E6, (i <? p) eqn:E7, (i <? len) eqn:E8; cbn [andb]; try reflexivity; lia.
    + replace (Z.min (k * block + block - 1) (len - 1)) with (len - 1) by lia. rewrite spots_end by lia. cbn [fold_left]. split; [rewrite put_nul_len by lia; lia|].
      intros i Hi. rewrite put_nul_get by lia. destruct (i =? len - 1) eqn:E1, (k * block <? len) eqn:E3, (i <? zlen f) eqn:E6, (i <? len - 1) eqn:E7, (i <? len) eqn:E8; cbn [andb]; try reflexivity; lia.
Qed.
Lemma mac_first_ok size block : 0 <= size -> 0 < block -> size + block <= 2 ^ 63 -> mac_first size block = Ok (size / block * block + block - 1).
Proof.
  intros H1 H2 H3. unfold mac_first. destruct (block =? 0) eqn:E; [lia|]. rewrite Z.quot_div_nonneg by lia. cbv zeta. pose proof (Z.mul_div_le size block H2). pose proof (Z.div_pos size block H1 H2).
  change (- 2 ^ 63) with (-9223372036854775808). change (2 ^ 63) with 9223372036854775808 in *.
  destruct ((size / block * block + block - 1 <? -9223372036854775808) || (9223372036854775808 <=? size / block * block + block - 1)) eqn:E1; [nia|]. rewrite u64_small by (change (2 ^ 64) with 18446744073709551616; nia). reflexivity.
Qed.

(** ** C157: the file after sc_mmap_init *)

(** A successful sc_mmap_init with PROT_WRITE: [n] is the length of the mapping.  The file is [n] bytes long if it was shorter, its new bytes
    are NULs, and the old ones are kept, but for the last byte of the first [n]: it is overwritten if it lies in the last block of the
    file, unfinished or not. *)
Theorem mac_file_partial : forall strerror offset len ps fd block an errno mmap ce file a w file' m,
  let size := zlen file in let n := if len =? 0 then size - offset else len in
  0 < block -> 0 <= len -> (len = 0 -> 0 <= offset <= size) -> n + block <= 2 ^ 63 -> size + block <= 2 ^ 63 ->
  mac_init strerror true offset len (Good ps) (Good fd) (Good size) block an errno mmap ce file = Ok (a, w, file', m, 0) ->
  mlen m = n /\ a = [Open fd; Map fd (mptr m) n offset] /\ zlen file' = Z.max size n /\
  (forall i, size <= i < n -> zget file' i = Some 0) /\
  (forall i, 0 <= i < size -> zget file' i = if (i =? n - 1) && (size / block * block <? n) then Some 0 else zget file i).
Proof.
  intros strerror offset len ps fd block an errno mmap ce file a w file' m size n Hb Hl Ho Hn Hs E. pose proof (zlen_nonneg file) as Z0. fold size in Z0.
  assert (N0 : 0 <= n) by (unfold n; destruct (len =? 0) eqn:El; lia).
  change (2 ^ 63) with 9223372036854775808 in *. unfold mac_init in E. cbn [mfd mptr mlen merr page_size] in E. cbv zeta in E. rewrite mac_first_ok in E by (change (2 ^ 63) with 9223372036854775808; lia). cbn [bind] in E.
  replace (if len =? 0 then u64 (size - offset) else len) with n in E by (unfold n; destruct (len =? 0) eqn:El; [rewrite u64_small; [reflexivity|change (2 ^ 64) with 18446744073709551616; lia]|reflexivity]).
  destruct (mac_grow block n (size / block * block + block - 1) an errno file []) as [[[f1 w1] r]| |] eqn:G; try discriminate. cbn [bind] in E.
  assert (Bd : forall x e acts, (let* m := map_err (strerror e) x in Ok (acts, w1, f1, m, -1)) = Ok (a, w, file', m, 0) -> False).
  { intros x e acts H. destruct (map_err (strerror e) x); cbn in H; discriminate. }
  destruct r as [e|]; [elim (Bd _ _ _ E)|]. destruct mmap as [p|e]; [|elim (Bd _ _ _ E)]. injection E as <- <- <- <-. cbn [mlen mptr].
  pose proof (Z.div_pos size block Z0 Hb) as K0. destruct (grow_run block n errno Hb N0 ltac:(change (2 ^ 64) with 18446744073709551616; lia) an (size / block) file [] f1 w1 None K0 G) as [R _].
  destruct (R eq_refl) as [_ ->]. destruct (spots_get block n Hb N0 _ (size / block) file eq_refl K0) as [S1 S2].
  { fold size. pose proof (Z.div_mod size block). pose proof (Z.mod_pos_bound size block Hb). nia. }
  fold size in S1, S2. split; [reflexivity|]. split; [reflexivity|]. split; [exact S1|]. split; intros i Hi; rewrite S2 by lia.
  - destruct ((i =? n - 1) && (size / block * block <? n)); [reflexivity|]. destruct (i <? size) eqn:E1; [lia|]. destruct (i <? n) eqn:E2; [reflexivity|lia].
  - destruct (i <? size) eqn:E1; [reflexivity|lia].
Qed.
Print Assumptions mac_file_partial.
(** An empty file is made 5 bytes long, two blocks of 4. *)
Example mac_file_ex : mac_init (fun _ => [69; 0]) true 0 5 (Good 4096) (Good 3) (Good (zlen (@nil Z))) 4 [(Good 3, Good 1); (Good 4, Good 1)] 0 (Good 65536) 0 [] =
  Ok ([Open 3; Map 3 65536 5 0], [3; 4], [0; 0; 0; 0; 0], mk_mapping 3 4096 65536 5 (repeat 0 128), 0).
Proof. vm_compute. reflexivity. Qed.
(** So a mapping from offset 0 on lies in the file, and a file that is to grow, or whose blocks are all full and are mapped, keeps its bytes. *)
Theorem mac_file_covers_partial : forall strerror len ps fd block an errno mmap ce file a w file' m,
  let size := zlen file in let n := if len =? 0 then size else len in
  0 < block -> 0 <= len -> n + block <= 2 ^ 63 -> size + block <= 2 ^ 63 ->
  mac_init strerror true 0 len (Good ps) (Good fd) (Good size) block an errno mmap ce file = Ok (a, w, file', m, 0) ->
  mlen m <= zlen file' /\ (size < n \/ n <= size / block * block -> firstn (Z.to_nat size) file' = file).
Proof.
  intros strerror len ps fd block an errno mmap ce file a w file' m size n Hb Hl Hn Hs E.
  destruct (mac_file_partial strerror 0 len ps fd block an errno mmap ce file a w file' m Hb Hl) as (F1 & _ & F3 & _ & F5); fold size; rewrite ?Z.sub_0_r; auto; [pose proof (zlen_nonneg file); lia|].
  fold size in F1, F3, F5. rewrite Z.sub_0_r in F1, F3, F5. fold n in F1, F3, F5. split; [lia|]. intros C. pose proof (zlen_nonneg file) as Z0. fold size in Z0. apply zget_ext.
  - rewrite zlen_firstn. fold size. lia.
  - intros i Hi. rewrite zlen_firstn in Hi. rewrite zget_firstn. destruct (i <? Z.of_nat (Z.to_nat size)) eqn:Ei; [|lia]. rewrite F5 by lia. destruct ((i =? n - 1) && (size / block * block <? n)) eqn:E1; [lia|reflexivity].
Qed.
Print Assumptions mac_file_covers_partial.
Example mac_file_covers_ex : mac_init (fun _ => [69; 0]) true 0 6 (Good 4096) (Good 3) (Good (zlen [1; 2; 3])) 4 [(Good 3, Good 1); (Good 5, Good 1)] 0 (Good 65536) 0 [1; 2; 3] =
  Ok ([Open 3; Map 3 65536 6 0], [3; 5], [1; 2; 3; 0; 0; 0], mk_mapping 3 4096 65536 6 (repeat 0 128), 0).
Proof. vm_compute. reflexivity. Qed.
(** Otherwise a byte is lost: mapping a whole file of 3 bytes sets its last byte to NUL (memory-map/sc_mmap.c:247-249 moves the write
    into the file). *)
Theorem mac_file_byte_refuted : mac_init (fun _ => [69; 0]) true 0 0 (Good 4096) (Good 3) (Good (zlen [1; 2; 3])) 4096 [(Good 2, Good 1)] 0 (Good 65536) 0 [1; 2; 3] =
  Ok ([Open 3; Map 3 65536 3 0], [2], [1; 2; 0], mk_mapping 3 4096 65536 3 (repeat 0 128), 0).
Proof. vm_compute. reflexivity. Qed.
Print Assumptions mac_file_byte_refuted.
(** And the offset is forgotten: 8 bytes from offset 8 of an empty file are mapped, which is 8 bytes long. *)
Theorem mac_file_offset_refuted : mac_init (fun _ => [69; 0]) true 8 8 (Good 8) (Good 3) (Good 0) 8 [(Good 7, Good 1)] 0 (Good 65536) 0 [] =
  Ok ([Open 3; Map 3 65536 8 8], [7], repeat 0 8, mk_mapping 3 8 65536 8 (repeat 0 128), 0).
Proof. vm_compute. reflexivity. Qed.
Print Assumptions mac_file_offset_refuted.
(** The loop ends after one round for each block that is not finished before byte [n]; every block gets its last byte below [n]. *)
Theorem mac_rounds : forall strerror offset len ps fd block an errno p ce file,
  let size := zlen file in let n := if len =? 0 then size - offset else len in
  0 < block -> 0 <= len -> (len = 0 -> 0 <= offset <= size) -> n + block <= 2 ^ 63 -> size + block <= 2 ^ 63 ->
  (forall x, In x an -> (exists l, fst x = Good l) /\ snd x = Good 1) -> (n + block - 1) / block - size / block <= zlen an ->
  exists a w file' m, mac_init strerror true offset len (Good ps) (Good fd) (Good size) block an errno (Good p) ce file = Ok (a, w, file', m, 0) /\
    zlen w = Z.max 0 ((n + block - 1) / block - size / block) /\
    forall k, size / block <= k -> k * block < n -> exists x, In x w /\ x / block = k /\ x < n.
Proof.
  intros strerror offset len ps fd block an errno p ce file size n Hb Hl Ho Hn Hs G Ln. pose proof (zlen_nonneg file) as Z0. fold size in Z0.
  assert (N0 : 0 <= n) by (unfold n; destruct (len =? 0) eqn:El; lia). change (2 ^ 63) with 9223372036854775808 in *.
  unfold mac_init. cbn [mfd mptr mlen merr page_size]. cbv zeta. rewrite mac_first_ok by (change (2 ^ 63) with 9223372036854775808; lia). cbn [bind].
  replace (if len =? 0 then u64 (size - offset) else len) with n by (unfold n; destruct (len =? 0) eqn:El; [rewrite u64_small; [reflexivity|change (2 ^ 64) with 18446744073709551616; lia]|reflexivity]).
  pose proof (Z.div_pos size block Z0 Hb) as K0. assert (N64 : n + block - 1 < 2 ^ 64) by (change (2 ^ 64) with 18446744073709551616; lia).
  destruct (grow_total block n errno Hb N0 N64 an (size / block) file [] K0 G) as (f1 & w1 & R); [unfold blocks; unfold zlen in Ln; lia|]. rewrite R. cbn [bind].
  destruct (grow_run block n errno Hb N0 N64 an (size / block) file [] f1 w1 None K0 R) as [W _]. destruct (W eq_refl) as [W1 _]. cbn [app] in W1. subst w1.
  do 4 eexists. split; [reflexivity|]. split; [unfold spots, blocks, zlen; rewrite map_length, seq_length; lia|].
  intros k K1 K2. apply (blocks_pos _ _ _ Hb) in K2 as K3. exists (Z.min (k * block + block - 1) (n - 1)). split; [|split; [|lia]].
  - unfold spots. apply in_map_iff. exists (Z.to_nat (k - size / block)). split; [f_equal; f_equal; f_equal; f_equal; lia|]. apply in_seq. unfold blocks. lia.
  - symmetry. apply (Z.div_unique_pos _ _ _ (Z.min (k * block + block - 1) (n - 1) - block * k)); lia.
Qed.
Print Assumptions mac_rounds.
Example mac_rounds_ex : let an := [(Good 3, Good 1); (Good 7, Good 1); (Good 8, Good 1)] in
  (forall x, In x an -> (exists l : Z, fst x = Good l) /\ snd x = Good 1) /\ (9 + 4 - 1) / 4 - zlen [7; 7] / 4 <= zlen an /\
  mac_init (fun _ => [69; 0]) true 0 9 (Good 4096) (Good 3) (Good 2) 4 an 0 (Good 65536) 0 [7; 7] =
  Ok ([Open 3; Map 3 65536 9 0], [3; 7; 8], [7; 7; 0; 0; 0; 0; 0; 0; 0], mk_mapping 3 4096 65536 9 (repeat 0 128), 0).
Proof. cbv zeta. split; [intros x [<- | [<- | [<- | []]]]; cbn; eauto|]. split; [vm_compute; discriminate|vm_compute; reflexivity]. Qed.

(** ** C158: what is open and mapped afterwards *)

(** As [mmap_init_resources]: on success one descriptor is open and one mapping exists, those of the structure; on failure nothing is
    left, the structure is empty and the message is that of the call that failed (of the errno before, if a write wrote nothing).
    Without PROT_WRITE the file is not touched. *)
Theorem mac_init_resources : forall strerror pw offset len sysconf open size block an errno mmap ce file a w file' m rc,
  (forall e, exists msg tl, strerror e = msg ++ 0 :: tl /\ nonul msg) ->
  mac_init strerror pw offset len sysconf open size block an errno mmap ce file = Ok (a, w, file', m, rc) ->
  (pw = false -> file' = file) /\
  ((rc = 0 /\ fds a [] = Some [mfd m] /\ maps a [] = Some [(mptr m, mlen m)] /\ open = Good (mfd m) /\ mmap = Good (mptr m) /\ merr m = repeat 0 128) \/
   (rc = -1 /\ fds a [] = Some [] /\ maps a [] = Some [] /\ mfd m = -1 /\ mptr m = 0 /\ mlen m = 0 /\
    exists e msg tl, strerror e = msg ++ 0 :: tl /\ nonul msg /\ says (merr m) msg /\
      (sysconf = Bad e \/ open = Bad e \/ size = Bad e \/ mmap = Bad e \/
       exists x, In x an /\ (fst x = Bad e \/ snd x = Bad e \/ exists n, snd x = Good n /\ n <> 1 /\ e = errno)))).
Proof.
  intros strerror pw offset len sysconf open size block an errno mmap ce file a w file' m rc Hm E. unfold mac_init in E. cbn [mfd mptr mlen merr page_size] in E. cbv zeta in E.
  assert (Er : forall acts w1 f1 e ps, (let* m := map_err (strerror e) (mk_mapping (-1) ps 0 0 (repeat 0 128)) in Ok (acts, w1, f1, m, -1)) = Ok (a, w, file', m, rc) ->
    a = acts /\ file' = f1 /\ rc = -1 /\ mfd m = -1 /\ mptr m = 0 /\ mlen m = 0 /\ exists msg tl, strerror e = msg ++ 0 :: tl /\ nonul msg /\ says (merr m) msg).
  { intros acts w1 f1 e ps H. destruct (Hm e) as (msg & tl & Es & Hn). rewrite Es in H.
    destruct (map_err_ok msg tl (mk_mapping (-1) ps 0 0 (repeat 0 128)) Hn eq_refl) as (m' & E1 & F1 & F2 & F3 & F4 & F5).
    rewrite E1 in H. cbn [bind] in H. injection H as <- <- <- <- <-. repeat split; auto. eauto. }
  Ltac fin Er E e := destruct (Er _ _ _ _ _ E) as (-> & -> & -> & H1 & H2 & H3 & msg & tl & H4 & H5 & H6); (split; [auto|]); right; cbn; rewrite ?Z.eqb_refl; repeat split; auto; exists e, msg, tl; auto 10.
  destruct sysconf as [ps|e]; [|fin Er E e]. destruct open as [fd|e]; [|fin Er E e]. destruct size as [size|e]; [|fin Er E e].
  set (n := if len =? 0 then u64 (size - offset) else len) in *.
  assert (Gr : forall pos an f0 w0 f1 w1 e, mac_grow block n pos an errno f0 w0 = Ok (f1, w1, Some e) -> exists x, In x an /\ (fst x = Bad e \/ snd x = Bad e \/ exists n, snd x = Good n /\ n <> 1 /\ e = errno)).
  { clear. intros pos an. revert pos. induction an as [|[sk wr] an IH]; intros pos f0 w0 f1 w1 e G; cbn in G; destruct (pos <? u64 (n + block - 1)); try discriminate.
    destruct sk as [l|x]; [|injection G as <- <- <-; eexists; split; [now left|now left]]. destruct wr as [k|x]; [|injection G as <- <- <-; eexists; split; [now left|right; now left]].
    destruct (k =? 1) eqn:Ek.
    - destruct (IH _ _ _ _ _ _ G) as (y & Y1 & Y2). exists y. split; [now right|exact Y2].
    - injection G as <- <- <-. eexists. split; [now left|]. right. right. exists k. split; [reflexivity|]. split; [lia|reflexivity]. }
  destruct (if pw then _ else _) as [[[f1 w1] r]| |] eqn:Ef; try discriminate E. cbn [bind] in E.
  assert (Fp : pw = false -> f1 = file) by (intros ->; congruence).
  destruct r as [e|].
  - assert (X : exists x, In x an /\ (fst x = Bad e \/ snd x = Bad e \/ exists n, snd x = Good n /\ n <> 1 /\ e = errno)).
    { destruct pw; [|discriminate]. destruct (mac_first size block) as [pos| |]; try discriminate. cbn [bind] in Ef. eapply Gr, Ef. }
    fin Er E e.
  - destruct mmap as [p|e]; [|fin Er E e]. injection E as <- <- <- <- <-. split; [exact Fp|]. left. cbn. auto 10.
Qed.
Print Assumptions mac_init_resources.
(** The second write is refused (error 28): the first has been made, the descriptor is closed. *)
Example mac_init_resources_ex : exists m, mac_init (fun e => [e; 0]) true 0 9 (Good 4096) (Good 3) (Good 2) 4 [(Good 3, Good 1); (Good 7, Bad 28)] 0 (Good 65536) 0 [7; 7] =
  Ok ([Open 3; Close 3], [3], [7; 7; 0; 0], m, -1) /\ firstn 2 (merr m) = [28; 0] /\ mfd m = -1.
Proof. eexists. split; [vm_compute; reflexivity|]. split; vm_compute; reflexivity. Qed.
