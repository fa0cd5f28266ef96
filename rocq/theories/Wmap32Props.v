(** C167: the range mapped on Windows with 32 bits. *)
From Verif Require Import Base CStr MmapModel WmapModel WmapProps Wmap32Model.
From Coq Require Import ZifyBool.

(** As wmmap_range, for files smaller than 4 GB, or if a length is given: a successful init asks for a mapping object that ends exactly
    where the view ends and for a view at the offset; if the system refuses views that reach over the object's end, the length is
    the one asked for, or for 0 what is left of the file, and no sum has overflowed.  Missing, because false (wmmap32_range_refuted):
    the same for larger files and length 0. *)
Theorem wmmap32_range_partial msgs pw anon offset len an a m size : 0 <= offset < 2 ^ 32 -> 0 <= len < 2 ^ 32 -> 0 <= size < 2 ^ 63 ->
  size < 2 ^ 32 \/ len <> 0 ->
  a_stat an = Good size -> wmap32_init msgs pw anon offset len an = Ok (a, m, 0) ->
  exists fm h total, In (Create fm h pw total) a /\ In (View fm (mptr m) offset (mlen m)) a /\
    (anon = false -> a_handle an = Good h) /\ (anon = true -> h = -1) /\
    (offset + mlen m <= total ->
       total = offset + mlen m /\ total < 2 ^ 32 /\ mlen m = (if len =? 0 then size - offset else len) /\ (len = 0 -> offset <= size)).
Proof.
  intros Ho Hn Hs Hz Es E. unfold wmap32_init in E. cbv zeta in E. rewrite Es in E.
  assert (X : forall e r (a' : list wact), (let* m := wmap_errstr msgs e (mk_mapping (-1) 0 0 0 (repeat 0 128)) in Ok (a', m, -1)) = Ok (r, m, 0) -> False).
  { intros e r a' H. destruct (wmap_errstr _ _ _); cbn in H; discriminate. }
  destruct (a_open an) as [fd|e]; [|exfalso; eapply X, E].
  set (n := if len =? 0 then u32 (u32 size - offset) else len) in E.
  assert (Hn' : 0 <= n < 2 ^ 32) by (unfold n, u32; destruct (len =? 0); [apply Z.mod_pos_bound; lia|lia]).
  rewrite (halves_id offset) in E by lia. assert (Ht : 0 <= u32 (offset + n) < 2 ^ 32) by (unfold u32; apply Z.mod_pos_bound; lia).
  rewrite (halves_id (u32 (offset + n))) in E by lia.
  destruct (if anon then Good (-1) else a_handle an) as [h|e] eqn:Eh; [|exfalso; eapply X, E].
  destruct (a_create an) as [fm|e]; [|exfalso; eapply X, E]. destruct (a_view an) as [p|e]; [|exfalso; eapply X, E].
  injection E as <- <-. cbn [mptr mlen]. exists fm, h, (u32 (offset + n)).
  split; [cbn; auto|]. split; [cbn; auto|]. split; [intros ->; exact Eh|]. split; [intros ->; now injection Eh as <-|].
  intro Hv. unfold u32 in *.
  assert (Hw : offset + n < 2 ^ 32).
  { destruct (Z_lt_dec (offset + n) (2 ^ 32)) as [|Hge]; [assumption|exfalso].
    assert (Em : (offset + n) mod 2 ^ 32 = offset + n - 2 ^ 32) by (symmetry; apply (Z.mod_unique_pos _ _ 1); lia). lia. }
  rewrite (Z.mod_small (offset + n)) by lia. split; [reflexivity|]. split; [exact Hw|].
  destruct (Z.eqb_spec len 0) as [->|Hl]; [|split; [reflexivity|contradiction]].
  destruct Hz as [Hz|Hz]; [|contradiction]. unfold n in Hw |- *. rewrite (Z.mod_small size) in Hw |- * by lia.
  destruct (Z_le_dec offset size) as [Hle|Hgt].
  - rewrite Z.mod_small by lia. split; [reflexivity|auto].
  - exfalso. assert (Em : (size - offset) mod 2 ^ 32 = size - offset + 2 ^ 32) by (symmetry; apply (Z.mod_unique_pos _ _ (-1)); lia). lia.
Qed.
Print Assumptions wmmap32_range_partial.
Example wmmap32_range_partial_ex :
  wmap32_init (fun _ => None) true false 65536 0 (mk_answers (Good 3) (Good 100000) (Good 40) (Good 50) (Good 131072) None None) =
    Ok ([WOpen 3; Create 50 40 true 100000; View 50 131072 65536 34464; Drop 50], mk_mapping 3 0 131072 34464 (repeat 0 128), 0).
Proof. vm_compute. reflexivity. Qed.

(** The whole of a file of 4 GB and 64 KB is asked for: 64 KB are mapped and the call succeeds. *)
Theorem wmmap32_range_refuted : exists an a m size, a_stat an = Good size /\ size = 2 ^ 32 + 65536 /\
  wmap32_init (fun _ => None) true false 0 0 an = Ok (a, m, 0) /\ mlen m = 65536 /\
  In (Create 50 40 true 65536) a /\ In (View 50 (mptr m) 0 65536) a.
Proof.
  exists (mk_answers (Good 3) (Good (2 ^ 32 + 65536)) (Good 40) (Good 50) (Good 131072) None None). do 3 eexists. split; [reflexivity|]. split; [reflexivity|].
  split; [vm_compute; reflexivity|]. vm_compute. auto 10.
Qed.
Print Assumptions wmmap32_range_refuted.

(** Whether all calls of an init are granted. *)
Definition all_granted (anon : bool) (an : answers) : bool :=
  good (a_open an) && good (a_stat an) && (anon || good (a_handle an)) && good (a_create an) && good (a_view an).
(** Nothing leaks: init never leaves the memory of its object, it succeeds exactly if all calls are granted; then a descriptor and the view
    are held, and nothing otherwise. *)
Theorem wmmap32_resources msgs pw anon offset len an : a_open an <> Good (-1) ->
  exists a m rc h, wmap32_init msgs pw anon offset len an = Ok (a, m, rc) /\ syss (mk_held [] [] []) a = Some h /\
    (if all_granted anon an then rc = 0 /\ h = mk_held [mfd m] [] [(mptr m, mlen m)] /\ mfd m <> -1
     else rc = -1 /\ h = mk_held [] [] [] /\ mfd m = -1 /\ mlen m = 0).
Proof.
  intros H. unfold wmap32_init, all_granted. set (m0 := mk_mapping (-1) 0 0 0 (repeat 0 128)).
  assert (ER : forall e a, syss (mk_held [] [] []) a = Some (mk_held [] [] []) ->
    exists a' m rc h, (let* m := wmap_errstr msgs e m0 in Ok (a, m, -1)) = Ok (a', m, rc) /\ syss (mk_held [] [] []) a' = Some h /\
      rc = -1 /\ h = mk_held [] [] [] /\ mfd m = -1 /\ mlen m = 0).
  { intros e a S. destruct (errstr_len msgs e m0 eq_refl) as (m' & -> & _ & F & _ & L). exists a, m', (-1), (mk_held [] [] []). cbn [bind]. auto 10. }
  destruct (a_open an) as [fd|e]; cbn [good andb]; [|now apply ER].
  destruct (a_stat an) as [size|e]; cbn [good andb]; [|apply ER; cbn; rewrite Z.eqb_refl; reflexivity].
  destruct anon; cbn [orb andb].
  - destruct (a_create an) as [fm|e]; cbn [good andb]; [|apply ER; cbn; rewrite Z.eqb_refl; reflexivity].
    destruct (a_view an) as [p|e]; cbn [good andb]; [|apply ER; cbn; rewrite !Z.eqb_refl; cbn; rewrite Z.eqb_refl; reflexivity].
    do 4 eexists. split; [reflexivity|]. cbn. rewrite !Z.eqb_refl. cbn. rewrite ?Z.eqb_refl. split; [reflexivity|]. split; [reflexivity|]. split; [reflexivity|congruence].
  - destruct (a_handle an) as [h|e]; cbn [good andb]; [|apply ER; cbn; rewrite Z.eqb_refl; reflexivity].
    destruct (a_create an) as [fm|e]; cbn [good andb]; [|apply ER; cbn; rewrite Z.eqb_refl; reflexivity].
    destruct (a_view an) as [p|e]; cbn [good andb]; [|apply ER; cbn; rewrite !Z.eqb_refl; cbn; rewrite Z.eqb_refl; reflexivity].
    do 4 eexists. split; [reflexivity|]. cbn. rewrite !Z.eqb_refl. cbn. rewrite ?Z.eqb_refl. split; [reflexivity|]. split; [reflexivity|]. split; [reflexivity|congruence].
Qed.
Print Assumptions wmmap32_resources.
(** The view is refused: the object and the descriptor are given back. *)
Example wmmap32_resources_ex :
  let an := mk_answers (Good 3) (Good 100000) (Good 40) (Good 50) (Bad 8) None (Some 6) in
  a_open an <> Good (-1) /\ all_granted false an = false /\
  exists m, wmap32_init (fun _ => None) true false 0 0 an = Ok ([WOpen 3; Create 50 40 true 100000; Drop 50; WClose 3], m, -1) /\ mfd m = -1.
Proof. split; [discriminate|]. split; [reflexivity|]. eexists. split; [vm_compute; reflexivity|reflexivity]. Qed.
