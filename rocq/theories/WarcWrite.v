(** Writing records. *)
From Verif Require Export WarcArchive.
From Coq Require Import String List.
Open Scope list_scope.

(** ** tuple records *)
Lemma write_headers_eq hs : write_headers false CRLF hs =
  concat (map header_text (filter (fun h => negb (supplied_by_content h)) hs)).
Proof. reflexivity. Qed.
Lemma write_headers_all hs : write_headers true CRLF hs = concat (map header_text hs).
Proof.
  unfold write_headers. f_equal. 
  assert (E : filter (keeps_header true) hs = hs) by (induction hs as [|h t IH]; [reflexivity|]; cbn; f_equal; exact IH).
  rewrite E. reflexivity.
Qed.
Definition tuple_rec (v : bytes) (hs : list header) (ct : option bytes) (body : bytes) : record :=
  new_warc v hs (Some (ct, Some body)) [] CF_none.
Lemma tuple_head v hs ct body :
  wrec_text (tuple_wrec v hs ct body) =
  v ++ CRLF ++ concat (map header_text (filter (fun h => negb (supplied_by_content h)) hs)) ++
  (if truthy ct then CONTENT_TYPE ++ [58; 32]%N ++ or_empty ct ++ CRLF else []) ++
  (CONTENT_LENGTH ++ [58; 32]%N ++ dec_nat (List.length body) ++ CRLF) ++ CRLF ++ body.
Proof.
  unfold wrec_text, head_text, tuple_wrec. cbn [w_version w_headers w_body]. unfold tuple_headers.
  rewrite !map_app, !concat_app, <- !app_assoc. do 3 f_equal.
  destruct ct as [[|c t]|]; cbn [truthy or_empty map concat]; unfold header_text; cbn [fst snd];
    rewrite <- ?app_assoc, ?app_nil_r; reflexivity.
Qed.
Lemma write_tuple_gen gz r v hs ct buf st :
  r_class r = RWarc v -> r_headers r = hs -> r_content r = Some (ct, buf) -> r_cf r = CF_none ->
  write_to gz CRLF r st =
  (Ret tt, r, st, let d := wrec_text (tuple_wrec v hs ct (or_empty buf)) ++ terminator in
                  match gz with None => d | Some deflate => deflate d end).
Proof.
  intros H1 H2 H3 H4. unfold write_to, rec_write, has_cf. rewrite H4, H1. cbn [andb].
  unfold warc_write, has_cf, rec_content. rewrite H4, H3, H2.
  match goal with |- (Ret tt, _, _, match gz with None => ?a | _ => _ end) = _ =>
    assert (E : a = wrec_text (tuple_wrec v hs ct (or_empty buf)) ++ terminator) end.
  { rewrite tuple_head, write_headers_eq. unfold terminator. rewrite <- !app_assoc. reflexivity. }
  rewrite E, H4. reflexivity.
Qed.
Lemma write_tuple gz v hs ct body st :
  write_to gz CRLF (tuple_rec v hs ct body) st =
  (Ret tt, tuple_rec v hs ct body, st,
   let d := wrec_text (tuple_wrec v hs ct body) ++ terminator in
   match gz with None => d | Some deflate => deflate d end).
Proof. exact (write_tuple_gen gz (tuple_rec v hs ct body) v hs ct (Some body) st eq_refl eq_refl eq_refl eq_refl). Qed.

Definition ctype_ok (ct : option bytes) : Prop := match ct with Some c => value_ok c | None => True end.
(** headers that are written must be clean (those supplied by the content are dropped) *)
Definition kept_clean (hs : list header) : Prop :=
  Forall (fun h => supplied_by_content h = false -> header_clean h) hs.
Lemma literal_name_ok n : forallb (fun c => negb (N.eqb c 10) && negb (N.eqb c 58)) n = true -> strip n = n -> name_ok n.
Proof.
  intros H Ht. rewrite forallb_forall in H. split; [|split]; [| |exact Ht]; intro Hi; apply H in Hi; discriminate.
Qed.
Lemma dec_value_ok n : value_ok (dec_nat n).
Proof.
  split.
  - intro Hi. unfold dec_nat in Hi. pose proof (dec_N_digits (N.of_nat n)) as Hd.
    rewrite ?Forall_forall, ?forallb_forall in Hd. apply Hd in Hi. discriminate.
  - apply tidy_trimmed. unfold dec_nat. apply dec_N_trimmed.
Qed.
Lemma tuple_wrec_ok v hs ct body : In v versions -> Forall header_ok hs -> kept_clean hs -> ctype_ok ct ->
  wrec_ok (tuple_wrec v hs ct body).
Proof.
  intros Hv Ho Hc Hct. unfold wrec_ok, tuple_wrec. cbn [w_version w_headers w_body].
  assert (Hf : Forall header_ok (filter (fun h => negb (supplied_by_content h)) hs)).
  { apply Forall_forall. intros h Hi. apply filter_In in Hi as [Hi _]. rewrite Forall_forall in Ho. auto. }
  assert (Hfc : Forall header_clean (filter (fun h => negb (supplied_by_content h)) hs)).
  { apply Forall_forall. intros h Hi. apply filter_In in Hi as [Hi E]. unfold kept_clean in Hc. rewrite Forall_forall in Hc.
    apply Hc; [exact Hi|]. destruct (supplied_by_content h); [discriminate|reflexivity]. }
  split; [exact Hv|]. split; [|split].
  - unfold tuple_headers. apply Forall_app. split; [exact Hf|]. apply Forall_app. split.
    + destruct ct as [[|c t]|]; constructor; [|constructor]. split; [apply literal_name_ok; reflexivity|exact Hct].
    + constructor; [|constructor]. split; [apply literal_name_ok; reflexivity|apply dec_value_ok].
  - unfold tuple_headers. apply Forall_app. split; [exact Hfc|]. apply Forall_app. split.
    + destruct ct as [[|c t]|]; constructor; [|constructor]. split; [discriminate|]. intro E. discriminate E.
    + constructor; [|constructor]. split; [intro E; discriminate E|]. intros _. eexists. apply py_int_dec_nat.
  - unfold tuple_headers. rewrite app_assoc, declared_length_app. cbn [declared_length].
    change (same_nameb (B "Content-Length") (B "Content-Length")) with true. cbn iota.
    rewrite py_int_dec_nat. reflexivity.
Qed.
Lemma terminator_ok : sep_ok terminator.
Proof. split; [intros c [<-|[<-|[<-|[<-|[]]]]]; auto|right; exists [13; 10; 13]%N; reflexivity]. Qed.

(** ** content files *)
Lemma copy_own rd : forall fuel st out, length (concat rd) + length rd < fuel ->
  exists rd', copy_loop fuel (CF_own rd) st out = (Ret tt, CF_own rd', st, out ++ yields rd).
Proof.
  intros fuel. revert rd. induction fuel as [|fuel IH]; intros rd st out Hf; [lia|].
  cbn [copy_loop cf_read].
  destruct rd as [|p ps]; [cbn; rewrite app_nil_r; eauto|].
  set (n := Z.to_nat CHUNK_SIZE). assert (Hn : 0 < n) by (unfold n, CHUNK_SIZE; lia). clearbody n.
  cbn [rd_read]. destruct p as [|c p].
  - cbn. rewrite app_nil_r. eauto.
  - cbn [concat length app] in Hf. rewrite app_length in Hf.
    destruct (Nat.leb_spec (length (c :: p)) n) as [Hle|Hgt].
    + destruct (IH ps st (out ++ c :: p)) as [rd' E]; [lia|]. exists rd'. rewrite E. cbn [yields]. rewrite <- app_assoc. reflexivity.
    + destruct n as [|n]; [lia|]. cbn [firstn]. 
      destruct (IH (skipn (S n) (c :: p) :: ps) st (out ++ c :: firstn n p)) as [rd' E].
      { cbn [concat length]. rewrite app_length, skipn_length. cbn [length] in *. lia. }
      exists rd'. rewrite E. rewrite <- app_assoc. f_equal. f_equal. cbn [yields skipn].
      destruct (skipn n p) as [|x y] eqn:Es.
      { apply (f_equal (@List.length _)) in Es. rewrite skipn_length in Es. cbn [length] in *. lia. }
      rewrite <- Es. cbn [app]. f_equal. rewrite app_assoc, firstn_skipn. reflexivity.
Qed.
Lemma copy_stream fuel : forall st left after out, in_payload st left after -> length left < fuel ->
  copy_loop fuel CF_stream st out = (Ret tt, CF_stream, moved st (length left) 0, out ++ left).
Proof.
  induction fuel as [|fuel IH]; intros st left after out Hi Hf; [lia|].
  cbn [copy_loop cf_read]. rewrite Z2Nat.id by (unfold CHUNK_SIZE; lia).
  assert (Hn : cop_nonneg (OpRead (Some CHUNK_SIZE))) by (cbn; unfold CHUNK_SIZE; lia).
  pose proof (run_cop_ok st left after _ Hi Hn) as E. cbn [run_cop] in E. rewrite E.
  destruct left as [|c l].
  - cbn [cop_result]. rewrite firstn_nil, app_nil_r. reflexivity.
  - set (d := cop_result (OpRead (Some CHUNK_SIZE)) (c :: l)) in *.
    destruct (cop_result_prefix (OpRead (Some CHUNK_SIZE)) (c :: l)) as [l' El].
    pose proof (run_cop_keeps _ _ _ _ _ Hi Hn El) as Hk. cbn [run_cop] in Hk. rewrite E in Hk. cbn [snd] in Hk.
    fold d in El.
    assert (Hd : exists x y, d = x :: y).
    { unfold d. cbn [cop_result]. destruct (Z.to_nat CHUNK_SIZE) eqn:Ez; [unfold CHUNK_SIZE in Ez; lia|]. cbn [firstn]. eauto. }
    destruct Hd as (x & y & Hd). rewrite Hd at 1. 
    assert (Hlen : length (c :: l) = length d + length l') by (rewrite El at 1; apply app_length).
    rewrite (IH _ _ _ (out ++ d) Hk) by (rewrite Hd in Hlen; cbn [length] in *; lia).
    rewrite <- app_assoc, <- El. do 2 f_equal.
    unfold moved, set_eoc, adv, set_fh. cbn. rewrite f_advance_advance. do 2 f_equal. symmetry. exact Hlen.
Qed.

(** a record whose content is a file: all headers, then the copy *)
Lemma write_own gz v hs errs rd st :
  exists rd', write_to gz CRLF (new_warc v hs None errs (CF_own rd)) st =
  (Ret tt, mkrec (RWarc v) hs errs None (CF_own rd') false, st,
   let d := head_text v hs ++ yields rd ++ terminator in
   match gz with None => d | Some deflate => deflate d end).
Proof.
  unfold write_to, rec_write. cbn [new_warc with_cf r_cf r_class has_cf r_valid negb andb].
  unfold warc_write. cbn [has_cf new_warc with_cf r_cf r_headers r_valid].
  match goal with |- context [copy_loop ?f ?c ?s ?o] => destruct (copy_own rd f s o (Nat.lt_succ_diag_r _)) as [rd' E] end.
  exists rd'. rewrite E. cbn [with_cf with_valid has_cf r_cf r_class r_headers r_errors r_content].
  rewrite write_headers_all. unfold head_text, terminator. rewrite <- !app_assoc. reflexivity.
Qed.
Lemma write_handed gz r v hs st left after :
  r_class r = RWarc v -> r_headers r = hs -> r_cf r = CF_stream -> r_valid r = true ->
  in_payload st left after ->
  write_to gz CRLF r st =
  (Ret tt, with_valid r false, moved st (length left) 0,
   let d := head_text v hs ++ left ++ terminator in
   match gz with None => d | Some deflate => deflate d end).
Proof.
  intros H1 H2 H3 H4 Hi. unfold write_to, rec_write, has_cf. rewrite H3, H1, H4. cbn [negb andb].
  unfold warc_write, has_cf. rewrite H3.
  assert (Hf : length left < cf_fuel CF_stream st).
  { cbn [cf_fuel]. pose proof (rest_fuel st) as H. destruct Hi as [_ Hr]. rewrite Hr, app_length in H. lia. }
  rewrite (copy_stream _ _ _ _ _ Hi Hf). cbn [with_cf with_valid r_cf has_cf].
  rewrite write_headers_all, H2, H4. unfold head_text, terminator. rewrite <- !app_assoc.
  destruct r; cbn in *. subst. reflexivity.
Qed.
