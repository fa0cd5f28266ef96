(** Theorems about the URI parser. *)
From Verif Require Import Base CStr CNum StrSpec StrProofs UriModel UriSpec UriProofs.

(** C51, C52: on every text, sc_uri_create accesses only the text and its block, and
    yields exactly the parts of [uri_parse]; NULL when there are none, when the
    allocation fails or when the text is longer than printf can handle. *)
Theorem uri_create_exact t tl a : nonul t -> zlen t < 2^62 ->
  (exists p u, uri_parse t = Some p /\ a <> None /\ fits p = true /\ uri_create (Some (t ++ 0 :: tl)) a = Ok (Some u) /\ shows u p) \/
  ((uri_parse t = None \/ a = None \/ exists p, uri_parse t = Some p /\ fits p = false) /\ uri_create (Some (t ++ 0 :: tl)) a = Ok None).
Proof.
  intros Hn Hl. pose proof (create_ok t tl a Hn Hl) as H. destruct (uri_parse t) as [p|]; [|right; split; [now left|exact H]].
  destruct a as [junk|]; [|right; split; [right; now left|exact H]]. destruct (fits p) eqn:F.
  - left. destruct H as (u & H1 & H2). exists p, u. repeat split; try assumption; [discriminate|apply H2..].
  - right. split; [right; right; eauto|exact H].
Qed.
Print Assumptions uri_create_exact.
(** "http://u:p@any.com:80/o?n#d" *)
Definition uri_demo : list Z := [104; 116; 116; 112; 58; 47; 47; 117; 58; 112; 64; 97; 110; 121; 46; 99; 111; 109; 58; 56; 48; 47; 111; 63; 110; 35; 100].
Example uri_exact_example : nonul uri_demo /\ zlen uri_demo < 2^62 /\
  uri_parse uri_demo = Some (mk_parts [104; 116; 116; 112] true (Some [117; 58; 112]) [97; 110; 121; 46; 99; 111; 109] [] (Some [56; 48]) [47; 111] [] (Some [110]) (Some [100])).
Proof. split; [unfold nonul; cbn; lia|]. split; vm_compute; reflexivity. Qed.

(** C51: a URI composed of well-formed parts is taken apart into them, and str is
    the URI. *)
Theorem uri_round_trip p tl junk : well_formed p -> nonul (compose p) -> fits p = true ->
  exists u, uri_create (Some (compose p ++ 0 :: tl)) (Some junk) = Ok (Some u) /\ shows u p.
Proof.
  intros W Hn F. assert (zlen (compose p) < 2^62) by (unfold fits in F; lia). pose proof (create_ok (compose p) tl (Some junk) Hn H) as C.
  rewrite (round_trip p W), F in C. exact C.
Qed.
Print Assumptions uri_round_trip.
(** foo://[::1]:8042/over?a=b#c, mailto:x@y *)
Definition uri_parts1 : parts := mk_parts [102; 111; 111] true None [91; 58; 58; 49; 93] [] (Some [56; 48; 52; 50]) [47; 111; 118; 101; 114] [] (Some [97; 61; 98]) (Some [99]).
Definition uri_parts2 : parts := mk_parts [109; 97; 105; 108; 116; 111] false None [] [] None [120; 64; 121] [] None None.
Example uri_round_example : well_formed uri_parts1 /\ fits uri_parts1 = true /\ well_formed uri_parts2 /\ fits uri_parts2 = true.
Proof.
  split; [|split; [vm_compute; reflexivity|split; [|vm_compute; reflexivity]]].
  - unfold well_formed, uri_parts1. cbn [scheme auth user host skip1 port path skip2 query fragment].
    split; [reflexivity|]. split; [reflexivity|]. split; [cbn; lia|]. split; [intros d [<-|[<-|[]]]; cbn; lia|]. split; [cbn; lia|].
    split; [right; eexists; reflexivity|]. split; [left; exists [58; 58; 49]; split; [reflexivity|cbn; lia]|]. split; [|cbn; lia].
    split; [discriminate|]. split; [repeat constructor|vm_compute; discriminate].
  - unfold well_formed, uri_parts2. cbn [scheme auth user host skip1 port path skip2 query fragment].
    split; [reflexivity|]. split; [reflexivity|]. split; [cbn; lia|]. split; [intros d [<-|[<-|[]]]; cbn; lia|]. split; [cbn; lia|].
    repeat split. discriminate.
Qed.

(** C52, as far as it is true: str is the text without the skipped pieces, so it
    is the text exactly when nothing was skipped.  Missing: something can be
    skipped, see below. *)
Theorem uri_str_partial t tl a u : nonul t -> zlen t < 2^62 -> uri_create (Some (t ++ 0 :: tl)) a = Ok (Some u) ->
  exists p, uri_parse t = Some p /\ source p = t /\ shows u p /\ (compose p = t <-> skip1 p = [] /\ skip2 p = []).
Proof.
  intros Hn Hl E. pose proof (create_ok t tl a Hn Hl) as C. pose proof (parse_source t) as S. destruct (uri_parse t) as [p|]; [|congruence].
  destruct a as [junk|]; [|congruence]. destruct (fits p); [|congruence]. destruct C as (u' & E' & Hs). rewrite E in E'. injection E' as <-.
  exists p. split; [reflexivity|]. specialize (S p eq_refl). split; [exact S|]. split; [exact Hs|]. split.
  - intro H. assert (L : zlen (compose p) = zlen (source p)) by congruence. unfold compose, source in L. rewrite !zlen_app, !zlen_cons, !zlen_app in L.
    pose proof (zlen_nonneg (skip1 p)). pose proof (zlen_nonneg (skip2 p)). split; apply zlen_zero; lia.
  - intros [H1 H2]. rewrite <- S. unfold compose, source. now rewrite H1, H2.
Qed.
Print Assumptions uri_str_partial.
Example uri_str_example : exists u, uri_create (Some (uri_demo ++ [0])) (Some []) = Ok (Some u) /\ firstn 28 (ubuf u) = uri_demo ++ [0].
Proof. eexists. split; vm_compute; reflexivity. Qed.
(** C52 is false: "http://a/b:1/c" loses "/b" (the search for the port runs into the
    path), and "a:b#c?d" loses "#c". *)
Theorem uri_str_refuted : exists t1 t2 u1 u2, nonul t1 /\ nonul t2 /\
  uri_create (Some (t1 ++ [0])) (Some []) = Ok (Some u1) /\ text_at (ubuf u1) (ustr u1) [104; 116; 116; 112; 58; 47; 47; 97; 58; 49; 47; 99] /\ t1 = [104; 116; 116; 112; 58; 47; 47; 97; 47; 98; 58; 49; 47; 99] /\
  uri_create (Some (t2 ++ [0])) (Some []) = Ok (Some u2) /\ text_at (ubuf u2) (ustr u2) [97; 58; 98; 63; 100] /\ t2 = [97; 58; 98; 35; 99; 63; 100].
Proof.
  exists [104; 116; 116; 112; 58; 47; 47; 97; 47; 98; 58; 49; 47; 99], [97; 58; 98; 35; 99; 63; 100]. eexists _, _. split; [unfold nonul; cbn; lia|]. split; [unfold nonul; cbn; lia|].
  split; [vm_compute; reflexivity|]. split; [exists []; eexists; split; [vm_compute; reflexivity|reflexivity]|]. split; [reflexivity|].
  split; [vm_compute; reflexivity|]. split; [exists []; eexists; split; [vm_compute; reflexivity|reflexivity]|]. reflexivity.
Qed.
Print Assumptions uri_str_refuted.
(** RFC 3986 URIs taken apart wrongly: an '@' in the path ends the userinfo
    ("http://a/b@c" has userinfo "a/b" and host "c"), a ':' at the end of the path
    makes the URI invalid ("http://a/b:"). *)
Theorem uri_rfc_refuted : exists t1 t2, nonul t1 /\ nonul t2 /\ t1 = [104; 116; 116; 112; 58; 47; 47; 97; 47; 98; 64; 99] /\ t2 = [104; 116; 116; 112; 58; 47; 47; 97; 47; 98; 58] /\
  uri_parse t1 = Some (mk_parts [104; 116; 116; 112] true (Some [97; 47; 98]) [99] [] None [] [] None None) /\
  uri_create (Some (t2 ++ [0])) (Some []) = Ok None.
Proof. eexists _, _. split; [|split; [|split; [reflexivity|split; [reflexivity|split; vm_compute; reflexivity]]]]; unfold nonul; cbn; lia. Qed.
Print Assumptions uri_rfc_refuted.
(** Ports that are no port numbers: "http://a:abc" (empty port, path "abc"),
    "http://a:65536", "http://a: +80". *)
Theorem uri_port_refuted :
  uri_parse [104; 116; 116; 112; 58; 47; 47; 97; 58; 97; 98; 99] = Some (mk_parts [104; 116; 116; 112] true None [97] [] (Some []) [97; 98; 99] [] None None) /\
  uri_parse [104; 116; 116; 112; 58; 47; 47; 97; 58; 54; 53; 53; 51; 54] = Some (mk_parts [104; 116; 116; 112] true None [97] [] (Some [54; 53; 53; 51; 54]) [] [] None None) /\
  uri_parse [104; 116; 116; 112; 58; 47; 47; 97; 58; 32; 43; 56; 48] = Some (mk_parts [104; 116; 116; 112] true None [97] [] (Some [32; 43; 56; 48]) [] [] None None).
Proof. split; [vm_compute; reflexivity|]. split; vm_compute; reflexivity. Qed.
Print Assumptions uri_port_refuted.
(** NULL and what has no ':' give NULL. *)
Theorem uri_null a : uri_create None a = Ok None /\ forall t tl, nonul t -> ~ In 58 t -> zlen t < 2^62 -> uri_create (Some (t ++ 0 :: tl)) a = Ok None.
Proof.
  split; [reflexivity|]. intros t tl Hn H Hl. pose proof (create_ok t tl a Hn Hl) as C. unfold uri_parse in C. now rewrite cut_at_none in C.
Qed.
Print Assumptions uri_null.
Example uri_null_example : nonul [49; 50; 55; 46; 48; 46; 48; 46; 49] /\ ~ In 58 [49; 50; 55; 46; 48; 46; 48; 46; 49]. Proof. split; unfold nonul; cbn; lia. Qed.
