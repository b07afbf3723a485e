(** Properties C38, C39: decoded messages, gzip bodies with a length. *)
From Verif Require Import RegexFacts.
From Verif Require Export PropsHttpMore HttpTidy.
From Coq Require Import String List Lia ZArith.
Open Scope list_scope.

(** ** C38 *)
(** the fields about framing and coding, which a decoded message leaves out *)
Definition framing_names : list bytes :=
  map B ["content-length"; "transfer-encoding"; "content-encoding"; "te"; "expect"; "trailer"]%string.
Definition kept (l : list (bytes * bytes)) : list (bytes * bytes) :=
  filter (fun nv => negb (in_list (lower (fst nv)) framing_names)) l.
Definition length_field (n : nat) : bytes * bytes := (B "Content-Length", dec_nat n).

Lemma strip_names : STRIP_HEADERS = framing_names. Proof. reflexivity. Qed.
(** the head the decoded message is written as *)
Definition plain_field (nv : bytes * bytes) : hfield := mkfield (fst nv) (SP :: snd nv) true [].
Definition plain_head (v : bytes) (c : Z) (p : bytes) (l : list (bytes * bytes)) : msg_head :=
  mkhead (v ++ [SP] ++ dec_Z c ++ [SP] ++ p) true (map plain_field l) true.
Lemma plain_text nv : field_text (plain_field nv) = write_field nv.
Proof. unfold field_text, plain_field, write_field. cbn [f_name f_value f_crlf f_folds map concat eol]. rewrite app_nil_r. reflexivity. Qed.
Lemma plain_head_text v c p l : head_text (plain_head v c p l) = v ++ [SP] ++ dec_Z c ++ [SP] ++ p ++ CRLF ++ concat (map write_field l) ++ CRLF.
Proof.
  unfold head_text, plain_head, fields_text. cbn [hd_start hd_start_crlf hd_fields hd_end_crlf eol]. rewrite map_map. rewrite (map_ext _ write_field) by (intro; apply plain_text).
  rewrite <- !app_assoc. reflexivity.
Qed.
Lemma starts_blank_strip s : strip s = s -> starts_blank s = false.
Proof.
  intro H. destruct s as [|c s]; [reflexivity|]. pose proof (strip_is_trimmed (c :: s)) as [T _]. rewrite H in T. specialize (T c s eq_refl). cbn.
  destruct (N.eqb_spec c SP) as [->|]; [discriminate|]. destruct (N.eqb_spec c TAB) as [->|]; [discriminate|]. reflexivity.
Qed.
Lemma plain_ok nv : good_pair nv -> field_ok (plain_field nv).
Proof.
  intros (G1 & G2 & G3 & G4). split; [exact G1|]. split; [|split; [exact G3|split; [apply starts_blank_strip, G4|constructor]]]. intros [X|X]; [discriminate|auto].
Qed.
Lemma plain_pair nv : good_pair nv -> strip (snd nv) = snd nv -> field_pair (plain_field nv) = nv.
Proof. intros (_ & _ & _ & G) H. unfold field_pair, plain_field. cbn [f_name f_value f_folds map concat]. rewrite strip_cons, app_nil_r, G, H by reflexivity. destruct nv; reflexivity. Qed.
Lemma plain_pairs v c p l : Forall good_pair l -> Forall (fun nv => strip (snd nv) = snd nv) l -> head_pairs (plain_head v c p l) = l.
Proof.
  intros G H. unfold head_pairs, plain_head. cbn [hd_fields]. rewrite map_map. induction l as [|nv l IH]; [reflexivity|]. inversion G; inversion H; subst. cbn [map]. rewrite plain_pair, IH by assumption. reflexivity.
Qed.
Lemma dec_Z_nonneg c : (0 <= c)%Z -> dec_Z c = dec_N (Z.to_N c).
Proof. destruct c; [reflexivity|reflexivity|lia]. Qed.
Lemma dec_N_all n : forallb is_digit (dec_N n) = true.
Proof. apply forallb_forall. intros c. apply dec_N_digits. Qed.
Lemma dec_N_value n : dec_value (dec_N n) = Z.of_N n.
Proof. pose proof (digits_int (dec_N n) (dec_N_nonempty n) (dec_N_all n)) as H. rewrite py_int_dec_N in H. injection H as H. congruence. Qed.
Lemma plain_says rm v c p l : (0 <= c)%Z -> ~ In SP v -> no_ws_end p -> start_says (Some rm) (hd_start (plain_head v c p l)) (KResponse rm v c (Some p)).
Proof.
  intros Hc Hv Hp. constructor. cbn [plain_head hd_start]. rewrite dec_Z_nonneg by exact Hc.
  replace c with (dec_value (dec_N (Z.to_N c))) at 2 by (rewrite dec_N_value; lia). constructor; [exact Hv|apply dec_N_nonempty|apply dec_N_all|exact Hp].
Qed.
Lemma plain_head_ok v c p l : (0 <= c)%Z -> no_lf v -> no_lf p -> Forall good_pair l -> head_ok (plain_head v c p l).
Proof.
  intros Hc Hv Hp Hl. split; [|split; [|split]]; cbn [plain_head hd_start hd_fields].
  - unfold no_lf. rewrite !in_app_iff. intros [X|[[X|[]]|[X|[[X|[]]|X]]]]; [auto|discriminate| |discriminate|auto].
    rewrite dec_Z_nonneg in X by exact Hc. apply dec_N_digits in X. discriminate.
  - destruct v; discriminate.
  - destruct v as [|a [|b v]]; discriminate.
  - apply Forall_forall. intros f Hf. apply in_map_iff in Hf as (nv & <- & Hn). rewrite Forall_forall in Hl. apply plain_ok, Hl, Hn.
Qed.
Lemma body_length_sum m : Forall (fun e => (Z.of_nat (fst e) + snd e <= Z.of_nat (List.length (m_buf m)))%Z) (m_chunks m) -> Forall (fun e => (0 <= snd e)%Z) (m_chunks m) ->
  fold_right Z.add 0%Z (map snd (m_chunks m)) = Z.of_nat (List.length (get_body m)).
Proof.
  unfold get_body. generalize (m_buf m). intro b. induction (m_chunks m) as [|[o n] l IH]; intros H1 H2; [reflexivity|]. inversion H1; inversion H2; subst. cbn [map fold_right concat fst snd] in *.
  rewrite app_length, IH by assumption. unfold slice. replace (_ <? 0)%Z with false by (symmetry; apply Z.ltb_ge; lia). rewrite firstn_length, skipn_length. lia.
Qed.

Lemma named_none n l : in_list n framing_names = true -> named [] n (kept l) = [].
Proof.
  intro H. unfold named. replace (filter _ (kept l)) with (@nil (bytes * bytes)); [reflexivity|]. symmetry. induction l as [|nv l IH]; [reflexivity|]. unfold kept in *. cbn [filter].
  destruct (in_list (lower (fst nv)) framing_names) eqn:E; cbn [negb]; [exact IH|]. cbn [filter]. destruct (bytes_eqb (lower (fst nv)) n) eqn:E2; [apply bytes_eqb_eq in E2; congruence|]. cbn [andb]. exact IH.
Qed.
Lemma named_app ign n a b : named ign n (a ++ b) = named ign n a ++ named ign n b.
Proof. unfold named. rewrite filter_app, map_app. reflexivity. Qed.
Lemma lower_digits s : forallb is_digit s = true -> lower s = s.
Proof.
  unfold lower. induction s as [|c s IH]; [reflexivity|]. cbn [forallb map]. intro H. apply andb_prop in H as [H1 H2]. rewrite IH by exact H2. f_equal. unfold to_lower, is_upper. unfold is_digit in H1.
  destruct (N.leb 65 c && N.leb c 90) eqn:E; [lia|reflexivity].
Qed.
Lemma length_field_named ign n m : named ign n [length_field m] = if bytes_eqb (B "content-length") n && negb (in_list n ign) then [dec_nat m] else [].
Proof.
  unfold named, length_field. cbn [filter fst snd]. change (lower (B "Content-Length")) with (B "content-length"). destruct (_ && _); [|reflexivity]. cbn [map snd]. rewrite lower_digits; [reflexivity|apply dec_N_all].
Qed.
Lemma good_length n : good_pair (length_field n) /\ strip (snd (length_field n)) = snd (length_field n).
Proof.
  split; [|apply strip_trimmed, dec_N_trimmed]. split; [|split; [|split]]; cbn [length_field fst snd].
  - intro X. repeat destruct X as [X|X]; try discriminate. contradiction.
  - intro X. apply dec_N_digits in X. discriminate.
  - intro X. repeat destruct X as [X|X]; try discriminate. contradiction.
  - reflexivity.
Qed.
Lemma Forall_kept P l : Forall P l -> Forall P (kept l).
Proof. intro H. apply Forall_forall. intros x Hx. apply filter_In in Hx as [Hx _]. rewrite Forall_forall in H. auto. Qed.

Lemma keep_all (l : list (bytes * bytes)) : filter (fun nv => negb (in_list (lower (fst nv)) [])) l = l.
Proof. induction l as [|x l IH]; [reflexivity|]. exact (f_equal (cons x) IH). Qed.
Section C38.
Variables (gz : bytes -> outcome bytes) (unzlib ungzip : bytes -> option bytes).
Hypothesis Hgz : gz_ok gz.
(** a response parser that some sequence of feed calls, possibly followed by close(),
    led to, and that reports completion *)
Definition finished (m : msg) : Prop := exists m0, reached gz m0 /\ (m = m0 \/ m = close m0) /\ complete m = true.
Lemma finished_facts m : finished m -> good_hdr (m_head m) /\ Forall (fun e => (Z.of_nat (fst e) + snd e <= Z.of_nat (List.length (m_buf m)))%Z) (m_chunks m) /\ (has_body (m_head m) = false -> m_chunks m = []).
Proof.
  intros (m0 & R & Hm & C). pose proof (reached_tidy gz m0 R) as (T1 & T2 & T3 & T4 & T5 & T6).
  assert (K : (m_mode m0 = End /\ m = m0) \/ (m_mode m0 = Body /\ m_reader m0 = None /\ m = set_mode m0 End)).
  { destruct Hm as [->| ->]; [left; unfold complete in C; destruct (m_mode m0); try discriminate; auto|].
    pose proof C as C0. apply C41_complete_after_close in C as [C|[C1 C2]].
    - left. unfold complete in C. destruct (m_mode m0) eqn:E; try discriminate. split; [reflexivity|]. unfold close. rewrite E. destruct (m_reader m0); reflexivity.
    - right. split; [exact C1|]. split; [exact C2|]. unfold close. rewrite C1, C2. reflexivity. }
  unfold filled in T2. destruct K as [[K ->]|(K1 & K2 & ->)].
  - destruct (T6 K) as [S1 S2]. rewrite S1 in T2. split; [exact T1|]. split; [|exact S2]. eapply Forall_impl; [|exact T2]. intros e He. cbn beta in *. lia.
  - split; [exact T1|]. unfold slack in T2. rewrite K2 in T2. split; [eapply Forall_impl; [|exact T2]; intros e He; cbn beta in *; cbn; lia|]. intro X. cbn in X. rewrite T5 in X by exact K1. discriminate.
Qed.
Variables (m : msg) (rm v p : bytes) (c : Z).
Hypothesis Hfin : finished m.
Hypothesis Hkind : h_kind (m_head m) = KResponse rm v c (Some p).
Hypothesis Hcode : (0 <= c)%Z.
(** all the fields the message had, in order: headers, then trailers *)
Notation fields := (h_headers (m_head m) ++ h_trailers (m_head m)).
Hypothesis Htidy : Forall (fun nv => strip (snd nv) = snd nv) fields.
Lemma facts : Forall good_pair fields /\ ~ In SP v /\ no_lf v /\ no_lf p /\ no_ws_end p.
Proof. destruct (finished_facts m Hfin) as ((G1 & G2 & G3) & _). rewrite Hkind in G1. split; [apply Forall_app; auto|exact G1]. Qed.
Lemma has_body_k : has_body (m_head m) = negb (method_no_body rm || code_no_body c).
Proof. unfold has_body. rewrite Hkind. symmetry. apply Bool.negb_orb. Qed.
(** the decoded message in the two cases, apart from content codings *)
Lemma decoded_with_body : ~ bodyless rm c -> (0 <= fold_right Z.add 0 (map snd (m_chunks m)))%Z ->
  exists e, (forall d, (e = ([], d)) -> decoded_message unzlib ungzip m = Ret (head_text (plain_head v c p (kept fields ++ [length_field (Z.to_nat (fold_right Z.add 0%Z (map snd (m_chunks m))))])) ++ d)) /\
  e = match h_encoding (m_head m), get_body m with
      | Some ((_ :: _) as e), _ :: _ =>
          match unzlib (get_body m) with
          | Some d => ([], d)
          | None => match ungzip (get_body m) with Some d => ([], d) | None => (B "Content-Encoding: " ++ e ++ CRLF, get_body m) end
          end
      | _, _ => ([], get_body m)
      end.
Proof.
  intros Hb Hs. eexists. split; [|reflexivity]. intros d Ed. unfold decoded_message. rewrite has_body_k. destruct (method_no_body rm || code_no_body c) eqn:E; [apply bodyless_iff in E; contradiction|]. cbn [negb].
  unfold decoded_start. rewrite Hkind. cbn [bind]. match goal with |- context [let '(_, _) := ?X in _] => replace X with (@nil N, d) by (symmetry; exact Ed) end. unfold write_headers. rewrite strip_names. fold (kept fields). rewrite plain_head_text, map_app, concat_app. cbn [map concat]. unfold write_field at 3. unfold length_field. cbn [fst snd].
  f_equal. rewrite <- !app_assoc. rewrite app_nil_l. replace (dec_Z (fold_right Z.add 0%Z (map snd (m_chunks m)))) with (dec_nat (Z.to_nat (fold_right Z.add 0%Z (map snd (m_chunks m))))).
  - reflexivity.
  - rewrite dec_Z_nonneg by exact Hs. unfold dec_nat. f_equal. lia.
Qed.
Lemma reparse n d rest pieces : ~ bodyless rm c -> List.length d = n -> concat pieces = head_text (plain_head v c p (kept fields ++ [length_field n])) ++ d ++ rest ->
  exists m', feed_all gz (parser_for (Some rm) []) pieces = Ret (m', rest) /\ complete m' = true /\ get_body m' = d /\
    h_kind (m_head m') = KResponse rm v c (Some p) /\ h_headers (m_head m') = kept fields ++ [length_field n].
Proof.
  intros Hb Hn Hp. destruct facts as (F1 & F2 & F3 & F4 & F5). set (l := kept fields ++ [length_field n]) in *. destruct (good_length n) as [L1 L2].
  assert (G : Forall good_pair l) by (apply Forall_app; split; [apply Forall_kept, F1|repeat constructor; exact L1 || apply L1]).
  assert (T : Forall (fun nv => strip (snd nv) = snd nv) l) by (apply Forall_app; split; [apply Forall_kept, Htidy|repeat constructor; exact L2]).
  pose proof (plain_pairs v c p l G T) as P.
  assert (N : forall x, in_list x framing_names = true -> named (ignored []) x (head_pairs (plain_head v c p l)) = if bytes_eqb (B "content-length") x then [dec_nat n] else []).
  { intros x Hx. rewrite P. unfold l. rewrite named_app. change (ignored []) with (@nil bytes). rewrite named_none by exact Hx. rewrite length_field_named. cbn [app]. rewrite Bool.andb_true_r. reflexivity. }
  destruct (C33_length_body_is_exact gz Hgz (Some rm) [] (plain_head v c p l) (KResponse rm v c (Some p))) with (v := dec_nat n) (body := d) (rest := rest) (pieces := pieces) as (m' & M1 & M2 & M3 & M4 & M5 & M6).
  - apply plain_head_ok; assumption.
  - apply plain_says; assumption.
  - exact Hb.
  - unfold says_chunked. rewrite N by reflexivity. reflexivity.
  - unfold length_value. rewrite N by reflexivity. reflexivity.
  - apply dec_N_nonempty.
  - apply dec_N_all.
  - unfold gzip_coded, coding. rewrite N by reflexivity. reflexivity.
  - unfold dec_nat. rewrite dec_N_value. lia.
  - exact Hp.
  - exists m'. rewrite P in M6. auto.
Qed.
(** No content coding: the decoded message parses back to the same response. *)
Theorem C38_decoded_message_parses_back : ~ bodyless rm c ->
  h_encoding (m_head m) = None \/ h_encoding (m_head m) = Some [] ->
  Forall (fun e => (0 <= snd e)%Z) (m_chunks m) ->
  exists text, decoded_message unzlib ungzip m = Ret text /\
  forall pieces, concat pieces = text -> exists m',
    feed_all gz (parser_for (Some rm) []) pieces = Ret (m', []) /\ complete m' = true /\ get_body m' = get_body m /\
    h_kind (m_head m') = KResponse rm v c (Some p) /\
    h_headers (m_head m') = kept fields ++ [length_field (List.length (get_body m))].
Proof.
  intros Hb He Hc. destruct (finished_facts m Hfin) as (_ & F & _). pose proof (body_length_sum m F Hc) as S.
  destruct (decoded_with_body Hb) as (e & D & Ee); [lia|]. rewrite S, Nat2Z.id in D.
  eexists. split; [apply (D (get_body m)); rewrite Ee; destruct He as [-> | ->]; reflexivity|].
  intros pieces Hp. apply reparse; [exact Hb|reflexivity|]. rewrite app_nil_r. exact Hp.
Qed.
(** A response that cannot have a body keeps all its fields. *)
Theorem C38_bodyless_message_parses_back : bodyless rm c -> c <> 100%Z -> length_readable [] fields ->
  exists text, decoded_message unzlib ungzip m = Ret text /\
  forall pieces, concat pieces = text -> exists m',
    feed_all gz (parser_for (Some rm) []) pieces = Ret (m', []) /\ complete m' = true /\ get_body m' = [] /\ get_body m = [] /\
    h_kind (m_head m') = KResponse rm v c (Some p) /\ h_headers (m_head m') = fields.
Proof.
  intros Hb H1 Hl. destruct facts as (F1 & F2 & F3 & F4 & F5). destruct (finished_facts m Hfin) as (_ & _ & F).
  assert (Hh : has_body (m_head m) = false) by (rewrite has_body_k; apply bodyless_iff in Hb; rewrite Hb; reflexivity).
  assert (G : get_body m = []) by (unfold get_body; rewrite (F Hh); reflexivity).
  exists (head_text (plain_head v c p fields)). split.
  - unfold decoded_message. rewrite Hh, G. unfold decoded_start. rewrite Hkind. cbn [bind].
    match goal with |- context [let '(_, _) := ?X in _] => replace X with (@nil N, @nil N) by (destruct (h_encoding (m_head m)) as [[|]|]; reflexivity) end.
    rewrite plain_head_text. f_equal. unfold write_headers. rewrite keep_all.
    rewrite <- !app_assoc. cbn [app]. rewrite ?app_nil_r. reflexivity.
  - intros pieces Hp. pose proof (plain_pairs v c p fields F1 Htidy) as P.
    destruct (C35_no_body_completes_at_blank_line gz Hgz (Some rm) [] (plain_head v c p fields) (KResponse rm v c (Some p))) with (rest := @nil N) (pieces := pieces) as (m' & M1 & M2 & M3 & M4 & M5 & M6).
    + apply plain_head_ok; assumption.
    + apply plain_says; assumption.
    + exact Hb.
    + cbn. congruence.
    + rewrite P. exact Hl.
    + rewrite app_nil_r. exact Hp.
    + exists m'. rewrite P in M6. auto 7.
Qed.
(** With a content coding that can be undone, the Content-Length written is that of the
    coded body: the decoded body is cut there, and the rest is taken for the start of
    another message. *)
Theorem C38_coded_body_gets_the_wrong_length x e d : ~ bodyless rm c ->
  h_encoding (m_head m) = Some (x :: e) -> unzlib (get_body m) = Some d -> Forall (fun e => (0 <= snd e)%Z) (m_chunks m) ->
  0 < List.length (get_body m) <= List.length d ->
  exists text, decoded_message unzlib ungzip m = Ret text /\
  forall pieces, concat pieces = text -> exists m',
    feed_all gz (parser_for (Some rm) []) pieces = Ret (m', skipn (List.length (get_body m)) d) /\ complete m' = true /\
    get_body m' = firstn (List.length (get_body m)) d.
Proof.
  intros Hb He Hu Hc Hlen. destruct (finished_facts m Hfin) as (_ & F & _). pose proof (body_length_sum m F Hc) as S.
  destruct (decoded_with_body Hb) as (ee & D & Ee); [lia|]. rewrite S, Nat2Z.id in D.
  eexists. split; [apply (D d); rewrite Ee, He, Hu; destruct (get_body m); [cbn in Hlen; lia|reflexivity]|].
  intros pieces Hp. destruct (reparse (List.length (get_body m)) (firstn (List.length (get_body m)) d) (skipn (List.length (get_body m)) d) pieces Hb) as (m' & M1 & M2 & M3 & _).
  - rewrite firstn_length. lia.
  - rewrite firstn_skipn. exact Hp.
  - exists m'. auto.
Qed.
End C38.

(** ** C39  gzip bodies with a length *)
Section C39.
Variable gz : bytes -> outcome bytes.
Variables (kind : option bytes) (ign : list bytes) (h : msg_head) (k : hkind) (v : bytes).
Hypothesis Hok : head_ok h.
Hypothesis Hsays : start_says kind (hd_start h) k.
Hypothesis Hbody : may_have_body k.
Hypothesis Hnot_chunked : says_chunked (ignored ign) (head_pairs h) = false.
Hypothesis Hlength : length_value (ignored ign) (head_pairs h) = Some v.
Hypothesis Hdigits : v <> [] /\ forallb is_digit v = true.
Hypothesis Hgzip : gzip_coded ign (head_pairs h) = true.
Notation n := (Z.to_nat (dec_value v)).
Lemma zip_start text : exists hd, head_facts hd k ign (head_pairs h) /\ feed gz (parser_for kind ign) (head_text h ++ text) =
  bind (bind (zip_reader gz (dec_value v) text) (fun r =>
     let m1 := set_chunks (set_reader (head_done (parser_for kind ign) h hd) (Some r)) [(List.length (head_text h), reader_remaining r)] in
     base_feed gz (if (reader_remaining r =? 0)%Z then set_mode m1 End else m1) text)) (fun p => Ret p).
Proof.
  destruct Hdigits as [D1 D2]. destruct (head_result gz _ kind ign h k (parser_fresh kind ign) Hok Hsays (readable _ _ _ Hlength D1 D2)) as (hd & F & E).
  exists hd. split; [exact F|]. rewrite feed_resp, E. unfold begin_body. cbn [head_done m_head set_mode set_head].
  assert (Hm : h_mode hd = MLength). { rewrite (hf_mode _ _ _ _ F), Hnot_chunked. unfold length_value in Hlength. destruct (named _ _ _); [discriminate|reflexivity]. }
  rewrite (has_body_true _ _ _ _ F Hbody) by (left; congruence). cbn [negb]. unfold body_is_chunked, body_length. rewrite Hm.
  destruct (hf_length _ _ _ _ F Hnot_chunked _ Hlength) as (z & Z1 & Z2). rewrite digits_int in Z1 by assumption. injection Z1 as <-. rewrite Z2.
  rewrite (hf_coding _ _ _ _ F). unfold gzip_coded in Hgzip. destruct (coding (ignored ign) (head_pairs h)) as [e|]; [|discriminate]. rewrite Hgzip.
  destruct (zip_reader gz (dec_value v) text) as [r| |]; try reflexivity. cbn [bind]. cbv zeta.
  replace (m_off (head_done (parser_for kind ign) h hd)) with (List.length (head_text h)) by (destruct kind; reflexivity).
  match goal with |- bind (base_feed gz ?M text) _ = bind (base_feed gz ?M2 text) _ => change M2 with M; set (m1 := M) end.
  destruct (base_feed gz m1 text) as [[m2 t2]| |] eqn:E2; try reflexivity. cbn [bind]. unfold resp. cbn [fst snd].
  destruct (continue_dec m2) as [[_ C]|_]; [exfalso|reflexivity].
  assert (Hm1 : m_mode m1 = Body \/ m_mode m1 = End) by (unfold m1; destruct (_ =? 0)%Z; auto).
  apply body_core in E2; [|exact Hm1]. unfold status in C. assert (K : h_kind (m_head m2) = k).
  { change (h_kind (core (m_head m2)) = k). rewrite E2. unfold m1. destruct (_ =? 0)%Z; apply F. }
  rewrite K in C. pose proof (body_code k Hbody). unfold code_of in *. destruct k; [discriminate|]. injection C as ->. congruence.
Qed.
Lemma take_n text : py_take (dec_value v) text = firstn n text.
Proof.
  unfold py_take, slice. replace (dec_value v <? 0)%Z with false; [rewrite Nat.sub_0_r; reflexivity|]. symmetry. apply Z.ltb_ge.
  destruct Hdigits as [_ D]. unfold dec_value. assert (G : forall s a, (0 <= a)%Z -> forallb is_digit s = true -> (0 <= fold_left (fun a c => 10 * a + (Z.of_N c - 48)) s a)%Z).
  { induction s as [|c s IH]; intros a Ha H; [exact Ha|]. cbn [forallb fold_left] in *. apply andb_prop in H as [H1 H2]. apply IH; [|exact H2]. unfold is_digit in H1. lia. }
  apply G; [lia|exact D].
Qed.
(** Headers and body in one call: the decompressed data is stored instead of the body,
    and every byte of the call, also those after the body, is used up. *)
Theorem C39_body_is_replaced text d : text <> [] -> gz (firstn n text) = Ret d -> d <> [] ->
  exists m, feed gz (parser_for kind ign) (head_text h ++ text) = Ret (m, []) /\ complete m = true /\
    get_body m = d /\ get_message m = head_text h ++ d.
Proof.
  intros Ht Hd Hn. destruct (zip_start text) as (hd & F & E). rewrite E. unfold zip_reader. rewrite take_n, Hd. cbn [bind reader_remaining].
  destruct (Z.eqb_spec (Z.of_nat (List.length d)) 0) as [Z|Z]; [destruct d; [contradiction|cbn in Z; lia]|].
  rewrite BF_body by (try exact Ht; reflexivity). unfold feed_body. cbn [set_chunks set_reader m_reader]. unfold zip_feed. replace (0 <? Z.of_nat (List.length d))%Z with true by (symmetry; apply Z.ltb_lt; lia).
  unfold feed_length. rewrite Nat2Z.id, firstn_all, skipn_all. replace (_ - _ <=? 0)%Z with true by (symmetry; apply Z.leb_le; lia). cbn [bind].
  eexists. split; [reflexivity|]. split; [reflexivity|]. split.
  - unfold get_body. cbn [set_mode set_reader set_buf set_chunks m_chunks m_buf map fst snd concat]. rewrite app_nil_r.
    replace (m_buf (head_done (parser_for kind ign) h hd)) with (head_text h) by (destruct kind; reflexivity). apply slice_to_end. lia.
  - destruct kind; reflexivity.
Qed.
(** In particular the result does not depend on the bytes after the first n. *)
(** The headers alone: if the decompressor makes nothing of nothing, the message is
    complete, with an empty body, and takes none of the bytes that follow. *)
Theorem C39_headers_alone_end_the_message : gz [] = Ret [] \/ gz [] = Raise EOSError ->
  exists m, feed gz (parser_for kind ign) (head_text h) = Ret (m, []) /\ complete m = true /\ get_body m = [] /\
    forall body, feed gz m body = Ret (m, body).
Proof.
  intro H0. destruct (zip_start []) as (hd & F & E). rewrite app_nil_r in E. rewrite E. unfold zip_reader. rewrite take_n, firstn_nil.
  assert (G : exists z, (match gz [] with Ret d => Ret (RZip (Some d) (Z.of_nat (List.length d))) | Raise EOSError => Ret (RZip None (Z.of_nat (List.length (@nil N)))) | Raise e => Raise e | Diverge => Diverge end) = Ret (RZip z 0)).
  { destruct H0 as [-> | ->]; eexists; reflexivity. }
  destruct G as (z & ->). cbn [bind reader_remaining Z.eqb]. rewrite BF_nil. cbn [bind]. eexists. split; [reflexivity|]. split; [reflexivity|]. split.
  - unfold get_body. cbn [set_mode set_reader set_chunks m_chunks m_buf map fst snd concat]. rewrite app_nil_r. replace (m_buf _) with (head_text h ++ []) by (rewrite app_nil_r; destruct kind; reflexivity). apply slice_at0.
  - intro body. rewrite feed_resp, BF_done by auto. cbn [bind]. unfold resp. cbn [fst snd]. match goal with |- (if continue_dec ?M then _ else _) = _ => destruct (continue_dec M) as [[_ C]|_] end; [exfalso|reflexivity].
    unfold status in C. cbn in C. rewrite (hf_kind _ _ _ _ F) in C. pose proof (body_code k Hbody). unfold code_of in *. destruct k; [discriminate|]. injection C as ->. congruence.
Qed.
(** Not gzip data: the whole rest of the call becomes the body, whatever the length
    announced. *)
Theorem C39_unreadable_body_takes_the_whole_call text : text <> [] -> gz (firstn n text) = Raise EOSError ->
  exists m, feed gz (parser_for kind ign) (head_text h ++ text) = Ret (m, []) /\ complete m = true /\ get_body m = text.
Proof.
  intros Ht Hd. destruct (zip_start text) as (hd & F & E). rewrite E. unfold zip_reader. rewrite take_n, Hd. cbn [bind reader_remaining].
  destruct (Z.eqb_spec (Z.of_nat (List.length text)) 0) as [Z|Z]; [destruct text; [contradiction|cbn in Z; lia]|].
  rewrite BF_body by (try exact Ht; reflexivity). unfold feed_body. cbn [set_chunks set_reader m_reader]. unfold zip_feed. replace (0 <? Z.of_nat (List.length text))%Z with true by (symmetry; apply Z.ltb_lt; lia).
  unfold feed_length. rewrite Nat2Z.id, firstn_all, skipn_all. replace (_ - _ <=? 0)%Z with true by (symmetry; apply Z.leb_le; lia). cbn [bind].
  eexists. split; [reflexivity|]. split; [reflexivity|].
  unfold get_body. cbn [set_mode set_reader set_buf set_chunks m_chunks m_buf map fst snd concat]. rewrite app_nil_r.
  replace (m_buf (head_done (parser_for kind ign) h hd)) with (head_text h) by (destruct kind; reflexivity). apply slice_to_end. lia.
Qed.
(** Truncated data raises *)
Theorem C39_truncated_data_raises text e : gz (firstn n text) = Raise e -> e <> EOSError -> feed gz (parser_for kind ign) (head_text h ++ text) = Raise e.
Proof.
  intros Hd He. destruct (zip_start text) as (hd & F & E). rewrite E. unfold zip_reader. rewrite take_n, Hd. destruct e; try reflexivity. contradiction.
Qed.
Variables (unzlib ungzip : bytes -> option bytes).
(** The decoded message announces the coding again although the data is not coded any
    more. *)
Theorem C39_decoded_message_still_says_gzip text d e m unread : text <> [] -> gz (firstn n text) = Ret d -> d <> [] ->
  coding (ignored ign) (head_pairs h) = Some e -> unzlib d = None -> ungzip d = None -> (forall a b c x, k <> KRequest a b c x) ->
  feed gz (parser_for kind ign) (head_text h ++ text) = Ret (m, unread) ->
  exists pre, decoded_message unzlib ungzip m = Ret (pre ++ B "Content-Encoding: " ++ e ++ CRLF ++ CRLF ++ d).
Proof.
  intros Ht Hd Hn He Hu1 Hu2 Hk E. destruct (C39_body_is_replaced text d Ht Hd Hn) as (m' & E' & _ & Gb & _). rewrite E in E'. injection E' as -> ->.
  assert (Hr : length_readable (ignored ign) (head_pairs h)) by (destruct Hdigits; eapply readable; eassumption).
  destruct (C43_headers_in_order gz kind ign h k Hok Hsays text m' [] (body_code k Hbody) Hr E) as (K1 & _ & _ & _ & K5 & _). rewrite He in K5.
  assert (Hne : exists x l, e = x :: l).
  { unfold gzip_coded in Hgzip. rewrite He in Hgzip. destruct e; [discriminate|eauto]. }
  destruct Hne as (x & l & ->).
  assert (Hst : exists s, decoded_start (m_head m') = Ret s).
  { unfold decoded_start. rewrite K1. destruct Hsays as [s1 method target version Hq|rm s1 version code phrase Hq]; [exfalso; eapply Hk; reflexivity|]. eexists. reflexivity. }
  destruct Hst as (s & Hst). unfold decoded_message. rewrite Hst. cbn [bind]. rewrite Gb, K5. destruct d as [|y d]; [contradiction|]. rewrite Hu1, Hu2.
  match goal with |- exists pre, Ret (s ++ ?a ++ ?b ++ _) = _ => exists (s ++ a ++ b) end. rewrite <- !app_assoc. reflexivity.
Qed.
End C39.
