(** C73, continued: the characters, parts and extensions of names in warcunpack_ia.py, its index file, and its loop on any file. *)
From Verif Require Export PropsUnpack PropsAnyList.
From Coq Require Import String List Lia ZArith.
Open Scope list_scope.

(** ** Specification *)
(** the URL without the first "://" *)
Definition without_scheme (url u : text) : Prop :=
  (exists a b, url = a ++ B "://" ++ b /\ (forall a' b', url = a' ++ B "://" ++ b' -> List.length a <= List.length a') /\ u = a ++ B "/" ++ b) \/
  ((forall a b, url <> a ++ B "://" ++ b) /\ u = url).
(** letters, digits and _ - / . stand for themselves, everything else becomes _ *)
Definition shown_as (alnum : N -> bool) (c d : N) : Prop :=
  ((alnum c = true \/ In c (B "_-/.")) -> d = c) /\ (~ (alnum c = true \/ In c (B "_-/.")) -> [d] = B "_").
(** the file name ends in the extension [ext], dot included *)
Definition has_extension (f stem ext : text) : Prop :=
  f = stem ++ ext /\ (exists e, ext = B "." ++ e /\ ~ In 46%N e) /\ exists c, In c stem /\ c <> 46%N.

(** ** Lemmas *)
Lemma replace_scheme_spec url : without_scheme url (replace_scheme url).
Proof.
  induction url as [|c t IH].
  - right. split; [|reflexivity]. intros [|] b H; discriminate.
  - destruct (startswith (B "://") (c :: t)) eqn:E.
    + left. apply startswith_iff in E as [b Eb]. exists [], b. split; [exact Eb|]. split; [intros; cbn; lia|].
      cbn [replace_scheme]. assert (E : startswith (B "://") (c :: t) = true) by (apply startswith_iff; eauto). rewrite E. change (SLASH :: skipn 3 (c :: t) = SLASH :: b). f_equal. rewrite Eb. reflexivity.
    + assert (R : replace_scheme (c :: t) = c :: replace_scheme t) by (cbn [replace_scheme]; rewrite E; reflexivity). rewrite R.
      destruct IH as [(a & b & Et & Hm & ->)|[Hn ->]].
      * left. exists (c :: a), b. split; [cbn [app]; f_equal; exact Et|]. split; [|reflexivity]. intros [|x a'] b' H.
        -- cbn [app] in H. rewrite H in E. discriminate.
        -- cbn [app] in H. injection H as _ H. specialize (Hm a' b' H). cbn [List.length]. lia.
      * right. split; [|reflexivity]. intros [|x a] b H.
        -- cbn [app] in H. rewrite H in E. discriminate.
        -- cbn [app] in H. injection H as _ H. exact (Hn a b H).
Qed.
Lemma keep_shown alnum c : shown_as alnum c (keep alnum c).
Proof.
  unfold shown_as, keep. assert (X : existsb (N.eqb c) (B "_-/.") = true <-> In c (B "_-/.")).
  { rewrite existsb_exists. split; [intros (x & Hx & E); apply N.eqb_eq in E; subst; exact Hx|intro H; exists c; split; [exact H|apply N.eqb_refl]]. }
  destruct (alnum c); [split; [reflexivity|intro H; destruct H; auto]|]. cbn [orb]. destruct (existsb (N.eqb c) (B "_-/.")).
  - split; [reflexivity|]. intro H. destruct H. right. apply X. reflexivity.
  - split; [|reflexivity]. intros [H|H]; [discriminate|apply X in H; discriminate].
Qed.
Lemma join_split s : join [SLASH] (split_slash s) = s.
Proof.
  induction s as [|c t IH]; [reflexivity|]. cbn [split_slash]. destruct (N.eqb_spec c SLASH) as [->|Hc].
  - pose proof (split_nonempty t). destruct (split_slash t) as [|p ps]; [contradiction|]. cbn [join] in *. cbn [app]. f_equal. exact IH.
  - pose proof (split_nonempty t). destruct (split_slash t) as [|p ps]; [contradiction|]. cbn [join] in *. destruct ps; cbn [app]; f_equal; exact IH.
Qed.
Lemma rfind_from_none c s : forall i best, ~ In c s -> rfind_from c s i best = best.
Proof. induction s as [|x t IH]; intros i best H; [reflexivity|]. cbn [rfind_from]. destruct (N.eqb_spec x c); [destruct H; left; assumption|]. apply IH. intro X. apply H. right. exact X. Qed.
Lemma rfind_from_last c a b : forall i best, ~ In c b -> rfind_from c (a ++ c :: b) i best = Some (i + List.length a).
Proof.
  induction a as [|x t IH]; intros i best H; cbn [app rfind_from].
  - rewrite N.eqb_refl, rfind_from_none by exact H. f_equal. cbn. lia.
  - rewrite IH by exact H. f_equal. cbn. lia.
Qed.
Lemma rfind_none c s : ~ In c s -> rfind c s = None. Proof. apply rfind_from_none. Qed.
Lemma rfind_last c a b : ~ In c b -> rfind c (a ++ c :: b) = Some (List.length a). Proof. intro H. exact (rfind_from_last c a b 0 None H). Qed.
Lemma splitext_ext f stem ext : no_slash f -> has_extension f stem ext -> splitext f = (stem, ext).
Proof.
  intros Hs (-> & (e & -> & He) & (c & Hc & Hd)). unfold splitext. change (B "." ++ e) with (DOT :: e) in *. rewrite rfind_last by exact He. rewrite rfind_none by exact Hs.
  cbn [skipn]. change (Nat.ltb (List.length stem) 0) with false. cbn match. rewrite Nat.sub_0_r, firstn_app, firstn_all, Nat.sub_diag, firstn_O, app_nil_r.
  assert (X : existsb (fun x => negb (N.eqb x DOT)) stem = true) by (apply existsb_exists; exists c; split; [exact Hc|]; apply negb_true_iff, N.eqb_neq; exact Hd).
  rewrite X, skipn_app, skipn_all, Nat.sub_diag. reflexivity.
Qed.
Lemma splitext_none f : ~ In 46%N f -> splitext f = (f, []).
Proof. intro H. unfold splitext. rewrite rfind_none by exact H. reflexivity. Qed.

(** ** C73 *)
(** the directories and the file name are the parts between slashes of the cleaned URL; empty directories are left out *)
Theorem C73_url_parts : forall alnum url, exists u cleaned ds,
  without_scheme url u /\ Forall2 (shown_as alnum) u cleaned /\
  cleaned = join (B "/") (ds ++ [url_file alnum url]) /\ Forall no_slash (ds ++ [url_file alnum url]) /\
  url_dirs alnum url = filter (fun d => negb (text_eqb d [])) ds.
Proof.
  intros alnum url. exists (replace_scheme url), (clean_url alnum url), (removelast (split_slash (clean_url alnum url))).
  split; [apply replace_scheme_spec|]. split; [unfold clean_url; induction (replace_scheme url); constructor; [apply keep_shown|assumption]|].
  unfold url_file. rewrite <- app_removelast_last by apply split_nonempty. split; [symmetry; apply join_split|]. split; [apply split_no_slash|reflexivity].
Qed.
(** without a content type the extension is that of the URL's file name, from its last dot, or .html *)
Theorem C73_extension_from_url : forall alnum guess_extension realpath fresh_id makedirs fuel k fs output_dir url default_name p fs1 k1,
  output_file alnum guess_extension realpath fresh_id makedirs fuel k fs output_dir url None default_name = Ret (p, false, fs1, k1) ->
  (forall stem ext, has_extension (url_file alnum url) stem ext -> List.length ext <= 45 ->
     p = realpath (normpath (join_path (out_directory alnum output_dir url) (firstn (45 - List.length ext) stem ++ ext)))) /\
  (url_file alnum url <> [] -> ~ In 46%N (url_file alnum url) ->
     p = realpath (normpath (join_path (out_directory alnum output_dir url) (firstn 40 (url_file alnum url) ++ B ".html")))) /\
  (url_file alnum url = [] ->
     p = realpath (normpath (join_path (out_directory alnum output_dir url) (firstn 40 default_name ++ B ".html")))).
Proof.
  intros alnum ge rp fid mk fuel k fs od url dn p fs1 k1 H.
  assert (U : forall n, n <= 45 -> forall s : text, upto (45 - Z.of_nat n) s = firstn (45 - n) s).
  { intros n Hn s. unfold upto. destruct (Z.ltb_spec (45 - Z.of_nat n) 0); [lia|]. f_equal. lia. }
  assert (G : forall name ext, name_ext alnum ge url None dn = (name, ext) -> List.length ext <= 45 ->
    p = rp (normpath (join_path (out_directory alnum od url) (firstn (45 - List.length ext) name ++ ext)))).
  { intros name ext En Hl. destruct (C73_name _ _ _ _ _ _ _ _ _ _ _ _ _ _ _ _ _ _ En H) as (fname & Ep & F & _ & _). rewrite Ep, (F eq_refl).
    unfold short_name. rewrite U by exact Hl. reflexivity. }
  destruct (C73_url_parts alnum url) as (_ & _ & ds & _ & _ & _ & Hs & _). apply Forall_app in Hs as [_ Hs]. inversion Hs as [|? ? Hs1 _]; subst.
  repeat split.
  - intros stem ext He Hl. apply G; [|exact Hl]. unfold name_ext. pose proof He as (Ef & (e & Ee & _) & (c & Hc & _)). pose proof (splitext_ext _ _ _ Hs1 He) as X.
    destruct (url_file alnum url) as [|x f]; [destruct stem; [destruct Hc|discriminate]|]. rewrite X. subst ext. reflexivity.
  - intros Hne Hd. apply (G (url_file alnum url) (B ".html")); [|cbn; lia]. unfold name_ext. pose proof (splitext_none _ Hd) as X. destruct (url_file alnum url); [contradiction|]. rewrite X. reflexivity.
  - intro Hn. apply (G dn (B ".html")); [|cbn; lia]. unfold name_ext. rewrite Hn. reflexivity.
Qed.
(** the index file the script empties: the log file given, or NAME.index.txt in the output directory *)
Theorem C73_index_file : forall output_dir log dir name args stdin, output_dir <> [] -> last output_dir 0%N <> 47%N ->
  (dir = [] \/ exists d, dir = d ++ B "/") -> no_slash name ->
  snd (unpack_main output_dir log ((dir ++ name) :: args) stdin) =
    [match log with Some l => l | None => output_dir ++ B "/" ++ name ++ B ".index.txt" end].
Proof.
  intros od log dir name args stdin Hod Hl Hd Hn. assert (E : basename (dir ++ name) = name).
  { unfold basename. destruct Hd as [->|[d ->]]; cbn [app]; [rewrite rfind_none by exact Hn; reflexivity|].
    rewrite <- app_assoc. change (B "/" ++ name) with (SLASH :: name). rewrite rfind_last by exact Hn. rewrite skipn_app, skipn_all2 by lia.
    replace (S (List.length d) - List.length d) with 1 by lia. reflexivity. }
  unfold unpack_main. cbn [snd]. destruct log as [l|]; [reflexivity|]. f_equal. unfold index_name. rewrite E. unfold join_path.
  assert (A : is_abs (name ++ B ".index.txt") = false).
  { unfold is_abs. destruct name as [|c name]; [reflexivity|]. cbn [app startswith]. destruct (N.eqb_spec SLASH c) as [<-|]; [destruct Hn; left; reflexivity|reflexivity]. }
  rewrite A. destruct od as [|x od]; [contradiction|]. set (p := x :: od) in *.
  assert (Z : ends_slash p = false).
  { unfold ends_slash. destruct (endswith [SLASH] p) eqn:Ee; [|reflexivity]. apply endswith_iff in Ee as [u Eu]. exfalso. apply Hl. rewrite Eu, last_last. reflexivity. }
  rewrite Z. reflexivity.
Qed.
(** the loop goes on behind every record, whatever is wrong with it: its content is read and thrown away *)
Definition unpack_visit (strict : bool) (off : option nat) (r : reading) (rest : bytes) : effect :=
  match whole strict r rest with
  | Some (_, more, d) => mkeffect [] (Ret tt) more d
  | None => mkeffect [] (Ret tt) rest (due r)
  end.
Definition dry (out : bytes) (st : stream) (it : item) : outcome bool * bytes * stream :=
  let '(o, _, st') := unpack_body ([], 0) st it in (o, out, st').
Lemma dry_body s out st it : unpack_body s st it = (fst (fst (dry out st it)), s, snd (dry out st it)) /\ snd (fst (dry out st it)) = out.
Proof.
  unfold dry, unpack_body. destruct (snd (fst it)) as [r|]; [|split; reflexivity]. unfold unpack_record. destruct (rec_content r st) as [[[[ct bs]|e|] r'] st']; [|split; reflexivity|split; reflexivity].
  destruct (is_some_eq (rec_type r') V_RESPONSE); [|split; reflexivity]. destruct ct; split; reflexivity.
Qed.
Lemma dry_loop n : forall s out st, exists o st', read_loop n None true unpack_body s st = (o, s, st') /\ read_loop n None true dry out st = (o, out, st').
Proof.
  induction n as [|n IH]; intros s out st; [do 2 eexists; split; reflexivity|]. cbn [read_loop]. destruct (read_record st true) as [[it|e|] st1]; [|do 2 eexists; split; reflexivity|do 2 eexists; split; reflexivity].
  destruct (dry_body s out st1 it) as [E1 E2]. rewrite E1. destruct (dry out st1 it) as [[o1 out1] st2]. cbn [fst snd] in *. subst out1.
  destruct o1 as [[|]|e|]; [|do 2 eexists; split; reflexivity|do 2 eexists; split; reflexivity|do 2 eexists; split; reflexivity].
  destruct (snd (fst it)); [apply IH|do 2 eexists; split; reflexivity].
Qed.
Lemma unpack_lists gz strict : lists (fun _ => True) gz strict dry (unpack_visit strict) (fun _ _ => []).
Proof.
  split; [|intros; rewrite app_nil_r; eexists; reflexivity]. intros off r rest out st p _ Hi. cbn zeta. unfold unpack_visit, dry, unpack_body. cbn [fst snd]. unfold unpack_record.
  pose proof (content_at gz strict r rest st p Hi) as C. destruct (whole strict r rest) as [[[x more] d]|] eqn:Ew; cbn [e_end e_out e_text e_due omap]; rewrite app_nil_r.
  - destruct C as (r' & st' & E & _ & _ & Hi'). rewrite E. exists st'. split; [|intros _; exists x; split; [exact (whole_parts _ _ _ _ _ _ Ew)|exact Hi']].
    destruct (is_some_eq (rec_type r') V_RESPONSE); [|reflexivity]. destruct (ctype _); reflexivity.
  - unfold rec_content. cbn [rd_record r_content r_cf].
    assert (E : stream_read st None = (Raise EValueError, st)).
    { destruct Hi as [(_ & _ & He & _ & Hs) _]. unfold stream_read. unfold bounded. rewrite He. unfold raw_read, f_read. rewrite Hs.
      unfold whole in Ew. destruct (Z.leb_spec 0 (due r)); [discriminate|]. destruct (Z.ltb_spec (due r) 0); [|lia].
      destruct ((due r =? -1)%Z || negb strict) eqn:Ed; [discriminate|]. apply orb_false_iff in Ed as [Ed1 Ed2]. rewrite ?Ed1, ?Ed2. destruct st; reflexivity. }
    rewrite E. exists st. split; [reflexivity|]. intros _. exists []. split; [reflexivity|]. cbn [List.length]. rewrite Nat.add_0_r. exact Hi.
Qed.
Theorem C73_loop_any_file : forall gz st pos text o, ready_on gz st pos text ->
  (show_run (negb gz) (unpack_visit (f_strict (s_fh st))) (fun _ _ => []) pos text [] o <-> exists st', unpack_records st = (o, ([], 0), st')).
Proof.
  intros gz st pos text o Hrd. unfold unpack_records, for_read_records.
  pose proof (any_listing (fun _ => True) gz (f_strict (s_fh st)) dry (unpack_visit (f_strict (s_fh st))) (fun _ _ => []) st pos text true (fun _ _ _ => I) (unpack_lists gz _)) as A.
  cbn [andb] in A. rewrite (A ltac:(intros off r rest _; unfold unpack_visit; destruct (whole _ r rest) as [[[x more] d]|] eqn:Ew; cbn [e_text]; [exists x; exact (whole_parts _ _ _ _ _ _ Ew)|exists []; reflexivity]) I Hrd eq_refl [] [] o).
  unfold for_read_records. destruct (dry_loop (file_fuel (s_fh st)) ([], 0) [] st) as (o1 & st1 & E1 & E2). cbn [app]. rewrite E1, E2.
  split; intros [st' E]; inversion E; subst; eauto.
Qed.
(** so every complete archive is gone through to its end *)
Corollary C73_loop_complete_archive : forall gz st pos text, ready_on gz st pos text -> valid_text text -> exists st', unpack_records st = (Ret tt, ([], 0), st').
Proof.
  intros gz st pos text Hrd Hv. apply (C73_loop_any_file gz st pos text (Ret tt) Hrd). generalize (f_strict (s_fh st)). intro strict. clear Hrd st.
  set (vis := unpack_visit strict). set (fin := fun (_ : option nat) (_ : list perr) => @nil N).
  revert pos. induction Hv as [text Hb|text r more body after Hra He Em Hd Hv IH]; intro pos.
  - apply (show_end (negb gz) vis fin pos text); [eapply Forall_impl; [|exact Hb]; intros ? []; assumption|].
    replace (junk_lines (lines_of text)) with (@nil bytes); [cbn; lia|]. symmetry. apply no_junk. eapply Forall_impl; [|exact Hb]. intros ? []; assumption.
  - change (@nil N) with (@nil N ++ []). fold (due r) in Hd.
    set (off := told (negb gz) (pos + List.length (concat (rd_before r)) + List.length (rd_pfx r))).
    assert (Ev : vis off r (concat more) = match whole strict r (concat more) with Some (_, m, d) => mkeffect [] (Ret tt) m d | None => mkeffect [] (Ret tt) (concat more) (due r) end) by reflexivity.
    destruct (whole strict r (concat more)) as [[[x m] d]|] eqn:Ew.
    + pose proof (whole_parts _ _ _ _ _ _ Ew) as Ex. unfold whole in Ew. destruct (Z.leb_spec 0 (due r)).
      * assert (X : x = body /\ m = after /\ d = 0%Z).
        { injection Ew as <- <- <-. rewrite Em. replace (Z.to_nat (due r)) with (List.length body) by lia.
          rewrite firstn_app, firstn_all, Nat.sub_diag, firstn_O, app_nil_r, skipn_app, skipn_all, Nat.sub_diag. cbn [skipn app]. repeat split. lia. }
        destruct X as (-> & -> & ->).
        eapply (show_record (negb gz) vis fin pos text r more (mkeffect [] (Ret tt) after 0%Z) body [] after); [exact Hra|symmetry; exact Ev|reflexivity|exact Ex|reflexivity|reflexivity|apply IH].
      * destruct (_ || _); [|discriminate]. assert (X : x = concat more /\ m = [] /\ (d <= 0)%Z) by (injection Ew as <- <- <-; repeat split; lia).
        destruct X as (-> & -> & Hd0). clear Ew.
        eapply (show_record (negb gz) vis fin pos text r more (mkeffect [] (Ret tt) [] d) (concat more) [] []); [exact Hra|symmetry; exact Ev|reflexivity|exact Ex|reflexivity|cbn [e_due List.length]; lia|].
        apply (show_end (negb gz) vis fin _ []); [constructor|cbn; lia].
    + unfold whole in Ew. destruct (Z.leb_spec 0 (due r)); [discriminate|]. assert (List.length body = 0) by lia. destruct body; [|discriminate]. cbn [app] in Em.
      eapply (show_record (negb gz) vis fin pos text r more (mkeffect [] (Ret tt) (concat more) (due r)) [] [] after); [exact Hra|symmetry; exact Ev|reflexivity|reflexivity|exact Em|cbn [e_due List.length]; lia|apply IH].
Qed.
(** ** C73: concrete cases *)
Definition letters (c : N) : bool := ((97 <=? c) && (c <=? 122) || (48 <=? c) && (c <=? 57))%N.
Example C73_more_cases :
  url_dirs letters (B "http://h.org//a:b/x.tar.gz") = [B "http"; B "h.org"; B "a_b"] /\ url_file letters (B "http://h.org//a:b/x.tar.gz") = B "x.tar.gz" /\
  has_extension (B "x.tar.gz") (B "x.tar") (B ".gz") /\
  ready_on false (new_stream SPlain (mkfile (concat (rd_lines valid_sample) ++ CRLF) 0 true) PWarc) 0 (concat (rd_lines valid_sample) ++ CRLF) /\
  valid_text (concat (rd_lines valid_sample) ++ CRLF) /\
  snd (unpack_main (B "/out") None [B "in/a.warc.gz"] (Ret tt)) = [B "/out/a.warc.gz.index.txt"].
Proof.
  split; [vm_compute; reflexivity|]. split; [vm_compute; reflexivity|].
  split; [split; [reflexivity|split; [exists (B "gz"); split; [reflexivity|vm_compute; intuition discriminate]|exists 120%N; split; [left; reflexivity|discriminate]]]|].
  split; [repeat split|]. split; [exact (proj1 C48_valid_case)|vm_compute; reflexivity].
Qed.
