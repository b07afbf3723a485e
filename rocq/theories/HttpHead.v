(** The parser on a well-formed message head. *)
From Verif Require Import RegexFacts.
From Verif Require Export HttpSpec HttpRun.
From Coq Require Import String List Lia.
Open Scope list_scope.
Notation no_lf := HttpSpec.no_lf.
Notation eol := HttpSpec.eol.

Definition flush (m : msg) : Prop := m_off m = List.length (m_buf m).
Lemma flush_pending m : flush m -> pending m = [].
Proof. unfold flush, pending. intros ->. apply skipn_all. Qed.
Lemma flush_bwf m : flush m -> bwf m.
Proof. intro H. split; [rewrite H; lia|]. rewrite flush_pending by exact H. intros []. Qed.
Lemma flush_took m a : flush (took m a). Proof. reflexivity. Qed.
Lemma set_head_eta m : set_head m (m_head m) = m. Proof. apply msg_eta. Qed.
Lemma set_headers_eta h : set_headers h (h_headers h) = h. Proof. destruct h; reflexivity. Qed.
Lemma set_trailers_eta h : set_trailers h (h_trailers h) = h. Proof. destruct h; reflexivity. Qed.

Definition before_lf (crlf : bool) : bytes := if crlf then [CR] else [].
Lemma eol_lf b : eol b = before_lf b ++ [LF]. Proof. destruct b; reflexivity. Qed.
Lemma no_lf_before s b : no_lf s -> ~ In LF (s ++ before_lf b).
Proof. intros H X. apply in_app_or in X as [X|X]; [auto|]. destruct b; [destruct X as [X|[]]; discriminate|contradiction]. Qed.
Lemma line_cut s b rest : no_lf s -> split_once LF (s ++ eol b ++ rest) = Some (s ++ before_lf b, rest).
Proof. intro H. rewrite eol_lf, <- app_assoc, app_assoc. apply split_once_hit, no_lf_before, H. Qed.
Lemma line_ne (s : bytes) b (rest : bytes) : s ++ eol b ++ rest <> [].
Proof. destruct s, b; discriminate. Qed.
Lemma eol_space b : forallb is_space (eol b) = true. Proof. destruct b; reflexivity. Qed.
Lemma newlines_iff l : in_list l NEWLINES = true <-> l = CRLF \/ l = [LF].
Proof. unfold in_list, NEWLINES. cbn [existsb]. rewrite !Bool.orb_true_iff, !bytes_eqb_eq. intuition discriminate. Qed.
Lemma newlines_eol b : in_list (eol b) NEWLINES = true. Proof. destruct b; reflexivity. Qed.
Lemma is_folded_iff l : is_folded l = starts_blank l.
Proof. destruct l as [|c l]; [reflexivity|]. unfold is_folded. cbn [startswith starts_blank]. rewrite !Bool.andb_true_r, !(N.eqb_sym c). reflexivity. Qed.

(** the lines of a field *)
Lemma strip_eol s b : strip (s ++ eol b) = strip s. Proof. apply strip_app_r, eol_space. Qed.
Lemma newlines_colon a b : in_list (a ++ COLON :: b) NEWLINES = false.
Proof.
  destruct (in_list _ NEWLINES) eqn:E; [|reflexivity]. apply newlines_iff in E.
  assert (X : In COLON CRLF \/ In COLON [LF]) by (destruct E as [<-|<-]; [left|right]; apply in_elt). destruct X as [[X|[X|[]]]|[X|[]]]; discriminate.
Qed.
Lemma starts_blank_app a b : starts_blank a = false -> a <> [] \/ starts_blank b = false -> starts_blank (a ++ b) = false.
Proof. destruct a; [intros _ [H|H]; [contradiction|exact H]|intros H _; exact H]. Qed.
Lemma field_first f b : field_ok f -> let line := f_name f ++ [COLON] ++ f_value f ++ eol b in
  is_folded line = false /\ in_list line NEWLINES = false /\ split_field line = Ret (strip (f_name f), strip (f_value f)).
Proof.
  intros (_ & _ & Hc & Hs & _). cbv zeta. split; [|split].
  - rewrite is_folded_iff. apply starts_blank_app; [exact Hs|right; reflexivity].
  - apply newlines_colon.
  - unfold split_field. change ([COLON] ++ f_value f ++ eol b) with (COLON :: f_value f ++ eol b). rewrite (split_once_hit COLON (f_name f) (f_value f ++ eol b) Hc). rewrite strip_eol. reflexivity.
Qed.
Lemma fold_line s b : starts_blank s = true -> let line := s ++ eol b in is_folded line = true /\ in_list line NEWLINES = false /\ strip line = strip s.
Proof.
  intro H. cbv zeta. rewrite is_folded_iff. destruct s as [|c s]; [discriminate|]. split; [exact H|]. split; [|apply strip_eol].
  destruct (in_list _ NEWLINES) eqn:E; [|reflexivity]. apply newlines_iff in E. cbn [app starts_blank] in *.
  assert (X : c = CR \/ c = LF) by (destruct E as [E|E]; injection E as -> _; auto). destruct X as [-> | ->]; discriminate.
Qed.
Lemma fold_last_snoc l k v line : fold_last (l ++ [(k, v)]) line = Ret (l ++ [(k, v ++ [SP] ++ strip line)]).
Proof. unfold fold_last. rewrite rev_app_distr. cbn [rev app]. rewrite rev_involutive. reflexivity. Qed.

Section G.
Variable gz : bytes -> outcome bytes.
Lemma BF_header_line m s b rest : m_mode m = Headers -> flush m -> no_lf s -> base_feed gz m (s ++ eol b ++ rest) =
  bind (add_header_line (m_head m) (s ++ eol b)) (fun h =>
    let m' := set_head (took m (s ++ eol b)) h in
    if in_list (s ++ eol b) NEWLINES then bind (begin_body gz (set_mode m' Body) rest) (fun m2 => base_feed gz m2 rest) else base_feed gz m' rest).
Proof.
  intros Hm Hf Hs. rewrite BF_headers by (try exact Hm; try apply flush_bwf, Hf; apply line_ne). rewrite line_cut by exact Hs.
  rewrite (flush_pending m Hf). cbn [app]. rewrite <- app_assoc, <- eol_lf. reflexivity.
Qed.
Lemma BF_folds xs : forall m l k v rest, m_mode m = Headers -> flush m -> Forall (fun x => no_lf (fst x) /\ starts_blank (fst x) = true) xs ->
  h_headers (m_head m) = l ++ [(k, v)] ->
  base_feed gz m (concat (map fold_text xs) ++ rest) =
  base_feed gz (set_head (took m (concat (map fold_text xs))) (set_headers (m_head m) (l ++ [(k, v ++ concat (map (fun x => [SP] ++ strip (fst x)) xs))]))) rest.
Proof.
  induction xs as [|x xs IH]; intros m l k v rest Hm Hf Hx Hl.
  - cbn [map concat app]. replace (l ++ [(k, v ++ [])]) with (h_headers (m_head m)) by (rewrite app_nil_r; exact Hl). rewrite took_nil by exact Hf. rewrite set_headers_eta, set_head_eta. reflexivity.
  - inversion Hx as [|? ? [H1 H2] H3]; subst. destruct x as [s b]. cbn [fst snd] in *. cbn [map concat]. unfold fold_text at 1. cbn [fst snd]. rewrite <- !app_assoc.
    destruct (fold_line s b H2) as (F1 & F2 & F3). rewrite BF_header_line by assumption. unfold add_header_line. rewrite F1, F2, Hl, fold_last_snoc, F3. cbn [bind].
    cbv zeta. match goal with |- base_feed _ ?M _ = _ => set (m1 := M) end.
    rewrite (IH m1 l k (v ++ [SP] ++ strip s)); [|exact Hm|reflexivity|exact H3|reflexivity].
    f_equal. unfold m1, set_head, took, set_buf, set_headers. cbn. rewrite <- !app_assoc. reflexivity.
Qed.
Lemma BF_fields fs : forall m rest, m_mode m = Headers -> flush m -> Forall field_ok fs ->
  base_feed gz m (fields_text fs ++ rest) =
  base_feed gz (set_head (took m (fields_text fs)) (set_headers (m_head m) (h_headers (m_head m) ++ map field_pair fs))) rest.
Proof.
  induction fs as [|f fs IH]; intros m rest Hm Hf Hok.
  - unfold fields_text. cbn [map concat app]. rewrite app_nil_r, took_nil by exact Hf. rewrite set_headers_eta, set_head_eta. reflexivity.
  - inversion Hok as [|? ? H1 H2]; subst. unfold fields_text. cbn [map concat]. fold (fields_text fs). rewrite <- app_assoc.
    pose proof H1 as (N1 & N2 & _ & _ & N5). destruct (field_first f (f_crlf f) H1) as (F1 & F2 & F3). unfold field_text at 1. rewrite <- !app_assoc.
    replace (f_name f ++ [COLON] ++ f_value f ++ eol (f_crlf f) ++ concat (map fold_text (f_folds f)) ++ fields_text fs ++ rest)
      with ((f_name f ++ [COLON] ++ f_value f) ++ eol (f_crlf f) ++ concat (map fold_text (f_folds f)) ++ fields_text fs ++ rest) by (rewrite <- !app_assoc; reflexivity).
    rewrite BF_header_line; [|exact Hm|exact Hf|].
    2:{ intro X. apply in_app_or in X as [X|X]; [auto|]. destruct X as [X|X]; [discriminate|auto]. }
    replace ((f_name f ++ [COLON] ++ f_value f) ++ eol (f_crlf f)) with (f_name f ++ [COLON] ++ f_value f ++ eol (f_crlf f)) by (rewrite <- !app_assoc; reflexivity).
    unfold add_header_line. rewrite F1, F2, F3. cbn [bind]. cbv zeta. match goal with |- base_feed _ ?M _ = _ => set (m1 := M) end.
    rewrite (BF_folds (f_folds f) m1 (h_headers (m_head m)) (strip (f_name f)) (strip (f_value f))); [|exact Hm|reflexivity|exact N5|reflexivity].
    match goal with |- base_feed _ ?M _ = _ => set (m2 := M) end.
    rewrite IH; [|exact Hm|reflexivity|exact H2]. f_equal. unfold m2, m1, set_head, took, set_buf, set_headers. cbn.
    unfold field_text. cbn [map]. rewrite <- !app_assoc. cbn [app]. rewrite <- ?app_assoc. reflexivity.
Qed.
(** the whole head *)
Definition head_done (m : msg) (h : msg_head) (hd : hdr) : msg := set_mode (set_head (took m (head_text h)) hd) Body.
Theorem BF_head m h rest : m_mode m = Start -> flush m -> head_ok h ->
  base_feed gz m (head_text h ++ rest) =
  bind (set_start_line (m_head m) (hd_start h ++ eol (hd_start_crlf h))) (fun h1 =>
  bind (note_headers (set_headers h1 (h_headers h1 ++ head_pairs h)) (h_headers h1 ++ head_pairs h)) (fun h2 =>
  bind (begin_body gz (head_done m h h2) rest) (fun m2 => base_feed gz m2 rest))).
Proof.
  intros Hm Hf (H1 & H2 & H3 & H4). unfold head_text. rewrite <- !app_assoc.
  rewrite BF_start by (try exact Hm; try apply flush_bwf, Hf; apply line_ne). rewrite line_cut by exact H1.
  rewrite (flush_pending m Hf). cbn [app]. cbv zeta. rewrite <- app_assoc, <- eol_lf.
  replace (in_list (hd_start h ++ eol (hd_start_crlf h)) NEWLINES) with false.
  2:{ symmetry. destruct (in_list _ NEWLINES) eqn:E; [|reflexivity]. exfalso. apply newlines_iff in E. destruct (hd_start h) as [|c [|d s]]; [contradiction|..].
      - destruct (hd_start_crlf h), E as [E|E]; try discriminate. injection E as ->. contradiction.
      - destruct (hd_start_crlf h), E as [E|E]; cbn in E; try discriminate; injection E as _ _ E; destruct s; discriminate. }
  destruct (set_start_line _ _) as [h1|e|] eqn:Es; cbn [bind]; try reflexivity.
  match goal with |- base_feed _ ?M _ = _ => set (m1 := M) end.
  rewrite BF_fields; [|reflexivity|reflexivity|exact H4]. match goal with |- base_feed _ ?M _ = _ => set (m2 := M) end.
  change (eol (hd_end_crlf h) ++ rest) with ([] ++ eol (hd_end_crlf h) ++ rest).
  rewrite BF_header_line; [|reflexivity|reflexivity|intros []]. cbn [app]. rewrite newlines_eol.
  unfold add_header_line. replace (is_folded (eol (hd_end_crlf h))) with false by (destruct (hd_end_crlf h); reflexivity). rewrite newlines_eol.
  change (m_head m2) with (set_headers h1 (h_headers h1 ++ head_pairs h)). cbn [h_headers set_headers].
  destruct (note_headers _ _) as [h2|e|]; cbn [bind]; try reflexivity. cbv zeta.
  replace (set_mode (set_head (took m2 (eol (hd_end_crlf h))) h2) Body) with (head_done m h h2); [reflexivity|].
  unfold head_done, m2, m1, set_mode, set_head, took, set_buf, head_text. cbn. rewrite <- !app_assoc. reflexivity.
Qed.
End G.
