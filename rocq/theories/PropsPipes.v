(** C99: tools in a row - the output of one tool, saved in a file, as the input of the next *)
From Verif Require Export PropsFilter PropsValid PropsA2W.
From Verif Require Import WarcWrite WarcArchive PropsRecord.
From Coq Require Import String List Lia ZArith.
Open Scope list_scope.

(** ** Specification *)
(** the file [i] is where the shell saved [text]: cmd > name, name not ending in .gz *)
Definition saved (i : input) (text : bytes) : Prop := in_data i = text /\ forall t, in_name i <> t ++ B ".gz".
(** the options that select by one field: -U, -T, -C, -D *)
Definition by_field (opt : fopt) : Prop := opt = FUrl \/ opt = FType \/ opt = FContentType \/ opt = FDate.
(** the record as warcfilter writes it *)
Definition kept (opt : fopt) (w : wrec) : wrec :=
  match opt with
  | FAny => from_memory w
  | FContentType => match header_of "Content-Type" w with Some _ => w | None => from_memory w end
  | _ => w
  end.

(** ** Lemmas *)
Lemma as_written_kept opt w : as_written opt w = canonical (kept opt w).
Proof. destruct opt; reflexivity. Qed.
Lemma first_value_ok name hs v : Forall header_ok hs -> first_header name hs = Some v -> value_ok v.
Proof. intros H E. destruct (first_header_in _ _ _ E) as [n Hi]. rewrite Forall_forall in H. exact (proj2 (H _ Hi)). Qed.
Lemma from_memory_ok w : wrec_ok w -> wrec_ok (from_memory w).
Proof.
  intros (Hv & Ho & Hc & _). apply tuple_wrec_ok; [exact Hv|exact Ho| |].
  - apply Forall_forall. intros h Hi _. rewrite Forall_forall in Hc. auto.
  - unfold ctype_ok. destruct (first_header (B "Content-Type") (w_headers w)) as [v|] eqn:E; [|exact I]. exact (first_value_ok _ _ _ Ho E).
Qed.
Lemma kept_ok opt w : wrec_ok w -> wrec_ok (kept opt w).
Proof. intro H. destruct opt; cbn [kept]; try exact H; [|apply from_memory_ok, H]. destruct (header_of "Content-Type" w); [exact H|apply from_memory_ok, H]. Qed.
Lemma saved_plain i l : Forall wrec_ok l -> saved i (concat (map canonical l)) -> plain_file i (concat (map canonical l)).
Proof.
  intros Hl [E Hn]. split; [exact Hn|]. split; [|exact E]. rewrite E, canonical_archive. intro t. apply not_magic.
  apply Forall_forall. intros [w s] Hin. apply in_map_iff in Hin as (w0 & X & Hin). injection X as <- <-. split; [|apply terminator_ok]. rewrite Forall_forall in Hl. auto.
Qed.
Lemma canonical_ok l : Forall wrec_ok l -> archive_ok (map (fun w => (w, terminator)) l).
Proof. intro Hl. apply Forall_forall. intros [w s] Hin. apply in_map_iff in Hin as (w0 & X & Hin). injection X as <- <-. split; [|apply terminator_ok]. rewrite Forall_forall in Hl. auto. Qed.
Lemma saved_holds gunzip i l : Forall wrec_ok l -> saved i (concat (map canonical l)) -> holds_archive gunzip i (map (fun w => (w, terminator)) l).
Proof. intros Hl Hs. split; [apply canonical_ok; exact Hl|]. left. rewrite <- canonical_archive. apply saved_plain; assumption. Qed.
Lemma records_one l : records [map (fun w => (w, terminator)) l] = l.
Proof. unfold records. cbn [map concat]. rewrite app_nil_r, map_map. apply map_id. Qed.
Lemma records_ok gunzip files l : Forall2 (holds_archive gunzip) files l -> Forall wrec_ok (records l).
Proof.
  intro H. unfold records. induction H as [|i a files l [Ha _] _ IH]; [constructor|]. cbn [map concat]. apply Forall_app. split; [|exact IH].
  apply Forall_forall. intros w Hin. apply in_map_iff in Hin as ([w0 s] & <- & Hin). unfold archive_ok in Ha. rewrite Forall_forall in Ha. exact (proj1 (Ha _ Hin)).
Qed.
Lemma selected_ok f opt l : Forall wrec_ok l -> Forall wrec_ok (map (kept opt) (filter f l)).
Proof.
  intro H. apply Forall_forall. intros w Hin. apply in_map_iff in Hin as (w0 & <- & Hin). apply filter_In in Hin as [Hin _]. rewrite Forall_forall in H. apply kept_ok, H, Hin.
Qed.
(** what keeping a record for -C does to its headers: only Content-Length lines move *)
Lemma first_header_supplied name hs : ~ same_name (B "Content-Type") name -> ~ same_name (B "Content-Length") name ->
  first_header name (filter (fun h => negb (supplied_by_content h)) hs) = first_header name hs.
Proof.
  intros N1 N2. induction hs as [|[n v] hs IH]; [reflexivity|]. cbn [filter first_header]. unfold supplied_by_content at 1. cbn [fst].
  destruct (bytes_eqb n (B "Content-Type")) eqn:E1; [apply bytes_eqb_eq in E1; subst n|]; [|destruct (bytes_eqb n (B "Content-Length")) eqn:E2; [apply bytes_eqb_eq in E2; subst n|]]; cbn [orb negb first_header].
  - destruct (same_nameb (B "Content-Type") name) eqn:S1; [|exact IH]. exfalso. apply N1. apply bytes_eqb_eq in S1. exact S1.
  - destruct (same_nameb (B "Content-Length") name) eqn:S1; [|exact IH]. exfalso. apply N2. apply bytes_eqb_eq in S1. exact S1.
  - destruct (same_nameb n name); [reflexivity|exact IH].
Qed.
Lemma no_ctype_filter hs : first_header (B "Content-Type") hs = None -> first_header (B "Content-Type") (filter (fun h => negb (supplied_by_content h)) hs) = None.
Proof.
  intro H. apply first_header_none in H. apply first_header_none. apply Forall_forall. intros h Hi. apply filter_In in Hi as [Hi _]. rewrite Forall_forall in H. auto.
Qed.
Lemma tuple_field name hs body : first_header (B "Content-Type") hs = None -> same_nameb (B "Content-Length") name = false ->
  first_header name (tuple_headers hs None body) = first_header name hs.
Proof.
  intros H N. unfold tuple_headers. cbn [app]. rewrite first_header_app. cbn [first_header]. rewrite N.
  assert (X : first_header name (filter (fun h => negb (supplied_by_content h)) hs) = first_header name hs); [|rewrite X; destruct (first_header name hs); reflexivity].
  destruct (same_nameb (B "Content-Type") name) eqn:E.
  - apply bytes_eqb_eq in E. assert (Q : forall l, first_header name l = first_header (B "Content-Type") l).
    { intro l. induction l as [|[n v] l IH]; [reflexivity|]. cbn [first_header]. rewrite IH. unfold same_nameb. rewrite <- E. reflexivity. }
    rewrite !Q, H. apply no_ctype_filter, H.
  - apply first_header_supplied; intro Q; [assert (X : same_nameb (B "Content-Type") name = true) by (apply bytes_eqb_eq; exact Q)|assert (X : same_nameb (B "Content-Length") name = true) by (apply bytes_eqb_eq; exact Q)]; congruence.
Qed.
Lemma kept_field opt name w : by_field opt -> same_nameb (B "Content-Length") (B name) = false -> header_of name (kept opt w) = header_of name w.
Proof.
  intros Ho N. destruct Ho as [->|[->|[->| ->]]]; cbn [kept]; try reflexivity. destruct (header_of "Content-Type" w) eqn:E; [reflexivity|].
  unfold header_of in *. unfold from_memory. rewrite E. exact (tuple_field (B name) (w_headers w) (w_body w) E N).
Qed.
Lemma kept_matches search opt opt' w : by_field opt -> by_field opt' -> matches search opt' (kept opt w) = matches search opt' w.
Proof. intros Ho [->|[->|[->| ->]]]; cbn [matches]; rewrite (kept_field opt) by (exact Ho || reflexivity); reflexivity. Qed.
Lemma filter_twice {A} (f : A -> bool) l : filter f (filter f l) = filter f l.
Proof. induction l as [|x l IH]; [reflexivity|]. cbn [filter]. destruct (f x) eqn:E; [cbn [filter]; rewrite E, IH; reflexivity|exact IH]. Qed.
Lemma from_memory_twice w : first_header (B "Content-Type") (w_headers w) = None -> from_memory (from_memory w) = from_memory w.
Proof.
  intro H. unfold from_memory. rewrite H. unfold tuple_wrec. cbn [w_version w_headers w_body]. rewrite (tuple_field (B "Content-Type")) by (exact H || reflexivity). rewrite H.
  f_equal. unfold tuple_headers. cbn [app]. rewrite filter_app, filter_twice.
  assert (X : forall n, filter (fun h => negb (supplied_by_content h)) [(B "Content-Length", n)] = []) by (intro; reflexivity). rewrite X, app_nil_r. reflexivity.
Qed.
Lemma kept_commute o1 o2 w : by_field o1 -> by_field o2 -> kept o1 (kept o2 w) = kept o2 (kept o1 w).
Proof. intros [->|[->|[->| ->]]] [->|[->|[->| ->]]]; reflexivity. Qed.
Lemma kept_twice o w : by_field o -> kept o (kept o w) = kept o w.
Proof.
  intros [->|[->|[->| ->]]]; try reflexivity. cbn [kept]. destruct (header_of "Content-Type" w) eqn:E; [rewrite E; reflexivity|].
  assert (X : header_of "Content-Type" (from_memory w) = None). { pose proof (kept_field FContentType "Content-Type" w) as Q. cbn [kept] in Q. rewrite E in Q. apply Q; [right; right; left; reflexivity|reflexivity]. }
  rewrite X. apply from_memory_twice. exact E.
Qed.
Lemma filter_map {A C} (f : C -> bool) (g : A -> C) l : filter f (map g l) = map g (filter (fun x => f (g x)) l).
Proof. induction l as [|x l IH]; [reflexivity|]. cbn [map filter]. destruct (f (g x)); cbn [map]; rewrite IH; reflexivity. Qed.
Lemma filter_filter {A} (f g : A -> bool) l : filter g (filter f l) = filter (fun x => f x && g x) l.
Proof. induction l as [|x l IH]; [reflexivity|]. cbn [filter]. destruct (f x); cbn [filter andb]; [destruct (g x); rewrite IH; reflexivity|exact IH]. Qed.
Lemma filter_same {A} (f g : A -> bool) l : (forall x, f x = g x) -> filter f l = filter g l.
Proof. intro H. induction l as [|x l IH]; [reflexivity|]. cbn [filter]. rewrite H, IH. reflexivity. Qed.
Lemma written_map opt (l : list wrec) : concat (map (as_written opt) l) = concat (map canonical (map (kept opt) l)).
Proof. rewrite map_map. f_equal. Qed.

(** ** The theorems *)
(** what warcfilter writes is an archive again, of well-formed records *)
Theorem C99_filter_gives_an_archive : forall gunzip http_gz search opt invert files l i out, opt <> FHttpType -> Forall2 (holds_archive gunzip) files l ->
  warcfilter gunzip http_gz search opt invert files = (Ret tt, out) -> saved i out ->
  holds_archive gunzip i (map (fun w => (kept opt w, terminator)) (filter (selected search opt invert) (records l))).
Proof.
  intros gunzip hg search opt invert files l i out No H E Hs. rewrite (C47_selects_exactly_the_matching_records gunzip hg search opt invert files l No H) in E. injection E as <-.
  rewrite written_map in Hs. pose proof (saved_holds gunzip i _ (selected_ok (selected search opt invert) opt _ (records_ok _ _ _ H)) Hs) as X. rewrite map_map in X. exact X.
Qed.
(** two filters in a row: what both select, in order - whichever comes first *)
Theorem C99_two_filters : forall gunzip http_gz p1 o1 v1 p2 o2 v2 files l i out, by_field o1 -> by_field o2 -> Forall2 (holds_archive gunzip) files l ->
  warcfilter gunzip http_gz p1 o1 v1 files = (Ret tt, out) -> saved i out ->
  warcfilter gunzip http_gz p2 o2 v2 [i] =
    (Ret tt, concat (map (fun w => canonical (kept o2 (kept o1 w))) (filter (fun w => selected p1 o1 v1 w && selected p2 o2 v2 w) (records l)))).
Proof.
  intros gunzip hg p1 o1 v1 p2 o2 v2 files l i out B1 B2 H E Hs.
  assert (N : forall o, by_field o -> o <> FHttpType) by (intros o [->|[->|[->| ->]]]; discriminate).
  pose proof (C99_filter_gives_an_archive gunzip hg p1 o1 v1 files l i out (N _ B1) H E Hs) as Hi.
  rewrite (C47_selects_exactly_the_matching_records gunzip hg p2 o2 v2 [i] [_] (N _ B2) (Forall2_cons _ _ Hi (Forall2_nil _))). do 2 f_equal.
  rewrite <- (map_map (kept o1) (fun w => (w, terminator))), records_one, filter_map, map_map, <- filter_filter. rewrite (filter_same (fun x => selected p2 o2 v2 (kept o1 x)) (selected p2 o2 v2)).
  - apply map_ext. intro w. apply as_written_kept.
  - intro w. unfold selected. rewrite kept_matches by assumption. reflexivity.
Qed.
Theorem C99_filters_commute : forall gunzip http_gz p1 o1 v1 p2 o2 v2 files l i1 out1 i2 out2, by_field o1 -> by_field o2 -> Forall2 (holds_archive gunzip) files l ->
  warcfilter gunzip http_gz p1 o1 v1 files = (Ret tt, out1) -> saved i1 out1 ->
  warcfilter gunzip http_gz p2 o2 v2 files = (Ret tt, out2) -> saved i2 out2 ->
  warcfilter gunzip http_gz p2 o2 v2 [i1] = warcfilter gunzip http_gz p1 o1 v1 [i2].
Proof.
  intros gunzip hg p1 o1 v1 p2 o2 v2 files l i1 out1 i2 out2 B1 B2 H E1 S1 E2 S2.
  rewrite (C99_two_filters gunzip hg p1 o1 v1 p2 o2 v2 files l i1 out1 B1 B2 H E1 S1), (C99_two_filters gunzip hg p2 o2 v2 p1 o1 v1 files l i2 out2 B2 B1 H E2 S2). do 2 f_equal.
  rewrite (filter_same (fun w => selected p1 o1 v1 w && selected p2 o2 v2 w) (fun w => selected p2 o2 v2 w && selected p1 o1 v1 w)) by (intro; apply andb_comm).
  apply map_ext. intro w. rewrite kept_commute by assumption. reflexivity.
Qed.
(** the same filter again changes nothing; with -i it leaves nothing *)
Theorem C99_filter_again : forall gunzip http_gz search opt invert files l i out, by_field opt -> Forall2 (holds_archive gunzip) files l ->
  warcfilter gunzip http_gz search opt invert files = (Ret tt, out) -> saved i out ->
  warcfilter gunzip http_gz search opt invert [i] = (Ret tt, out) /\ warcfilter gunzip http_gz search opt (negb invert) [i] = (Ret tt, []).
Proof.
  intros gunzip hg search opt invert files l i out B H E Hs. split.
  - rewrite (C99_two_filters gunzip hg search opt invert search opt invert files l i out B B H E Hs). rewrite <- E.
    rewrite (C47_selects_exactly_the_matching_records gunzip hg search opt invert files l) by (assumption || (destruct B as [->|[->|[->| ->]]]; discriminate)). do 2 f_equal.
    rewrite (filter_same _ (selected search opt invert)) by (intro; apply andb_diag). apply map_ext. intro w. rewrite kept_twice by exact B. symmetry. apply as_written_kept.
  - rewrite (C99_two_filters gunzip hg search opt invert search opt (negb invert) files l i out B B H E Hs). do 2 f_equal.
    assert (X : forall m, filter (fun w => selected search opt invert w && selected search opt (negb invert) w) m = []).
    { intro m. induction m as [|w m IH]; [reflexivity|]. cbn [filter]. unfold selected at 1 2. destruct (matches search opt w), invert; exact IH. }
    rewrite X. reflexivity.
Qed.
(** a copy - compressed or not - before or after the filter makes no difference *)
Theorem C99_copy_then_filter : forall gunzip http_gz unzlib ungzip search opt invert files l i out, opt <> FHttpType -> Forall2 (holds_archive gunzip) files l ->
  warc2warc gunzip http_gz unzlib ungzip None false files = (Ret tt, out) -> saved i out ->
  warcfilter gunzip http_gz search opt invert [i] = warcfilter gunzip http_gz search opt invert files.
Proof.
  intros gunzip hg uz ug search opt invert files l i out No H E Hs. rewrite (C45_copies_every_record gunzip hg uz ug None files l H) in E. injection E as <-.
  pose proof (saved_holds gunzip i _ (records_ok _ _ _ H) Hs) as Hi.
  rewrite (C47_selects_exactly_the_matching_records gunzip hg search opt invert [i] [_] No (Forall2_cons _ _ Hi (Forall2_nil _))), (C47_selects_exactly_the_matching_records gunzip hg search opt invert files l No H), records_one. reflexivity.
Qed.
Theorem C99_packed_copy_then_filter : forall gunzip http_gz unzlib ungzip (deflate : gzipper) search opt invert files l name t out, opt <> FHttpType -> Forall2 (holds_archive gunzip) files l ->
  (forall ds, gunzip (concat (map deflate ds)) = concat ds) -> name = t ++ B ".gz" ->
  warc2warc gunzip http_gz unzlib ungzip (Some deflate) false files = (Ret tt, out) ->
  warcfilter gunzip http_gz search opt invert [mkin name out] = warcfilter gunzip http_gz search opt invert files.
Proof.
  intros gunzip hg uz ug deflate search opt invert files l name t out No H Hg Hn E. rewrite (C45_copies_every_record gunzip hg uz ug (Some deflate) files l H) in E. injection E as <-.
  assert (Hi : holds_archive gunzip (mkin name (concat (map (fun w => in_output (Some deflate) (canonical w)) (records l)))) (map (fun w => (w, terminator)) (records l))).
  { split; [apply canonical_ok, (records_ok _ _ _ H)|]. right. split; [left; exists t; exact Hn|]. cbn [in_data in_output]. rewrite <- canonical_archive. rewrite <- (map_map canonical (fun x => deflate x)). apply Hg. }
  pose proof (C47_selects_exactly_the_matching_records gunzip hg search opt invert _ _ No (Forall2_cons _ _ Hi (Forall2_nil _))) as X. rewrite records_one in X.
  etransitivity; [exact X|]. symmetry. exact (C47_selects_exactly_the_matching_records gunzip hg search opt invert files l No H).
Qed.
Theorem C99_filter_then_copy : forall gunzip http_gz unzlib ungzip search opt invert files l i out, opt <> FHttpType -> Forall2 (holds_archive gunzip) files l ->
  warcfilter gunzip http_gz search opt invert files = (Ret tt, out) -> saved i out ->
  warc2warc gunzip http_gz unzlib ungzip None false [i] = (Ret tt, out) /\ warcvalid gunzip [i] = Ret 0%Z.
Proof.
  intros gunzip hg uz ug search opt invert files l i out No H E Hs. pose proof (C99_filter_gives_an_archive gunzip hg search opt invert files l i out No H E Hs) as Hi. split.
  - rewrite (C45_copies_every_record gunzip hg uz ug None [i] [_] (Forall2_cons _ _ Hi (Forall2_nil _))). rewrite <- E.
    rewrite (C47_selects_exactly_the_matching_records gunzip hg search opt invert files l No H). do 2 f_equal. rewrite <- (map_map (kept opt) (fun w => (w, terminator))), records_one, map_map. apply map_ext. intro w. symmetry. apply as_written_kept.
  - apply (C48_intact_archives_accepted gunzip [i] [_] (Forall2_cons _ _ Hi (Forall2_nil _))).
Qed.
(** arc2warc first: its output is valid, a copy of it is the same file, converting it again changes nothing, and a filter selects among the converted records *)
Theorem C99_converted : forall gunzip http_gz uuid clock fields resources responses files l ws final i out,
  byte_prefixes resources -> byte_prefixes responses -> Forall2 (holds_units gunzip) files l -> Forall (all_tidy []) l -> (forall x, value_ok (uuid x)) ->
  becomes_files uuid clock http_gz fields resources responses l (None, 0) ws final ->
  arc2warc gunzip http_gz uuid clock None false fields resources responses files = (Ret tt, out) -> saved i out ->
  warcvalid gunzip [i] = Ret 0%Z /\
  (forall unzlib ungzip, warc2warc gunzip http_gz unzlib ungzip None false [i] = (Ret tt, out)) /\
  arc2warc gunzip http_gz uuid clock None false fields resources responses [i] = (Ret tt, out) /\
  (forall search opt invert, opt <> FHttpType -> warcfilter gunzip http_gz search opt invert [i] = (Ret tt, concat (map (as_written opt) (filter (selected search opt invert) ws)))).
Proof.
  intros gunzip hg uuid clock fields res rsp files l ws final i out H1 H2 Hf Ht Hu Hb E Hs.
  rewrite (C50_converts_every_record gunzip hg uuid clock None fields res rsp files l ws final H1 H2 Hf Hb) in E. injection E as <-. cbn [in_output] in *.
  assert (Hw : Forall wrec_ok ws).
  { apply (becomes_files_ok uuid clock hg fields res rsp Hu l (None, 0) ws final Hb); [|discriminate].
    clear - Hf Ht. induction Hf as [|x a files l (Hok & _) _ IH]; [constructor|]. inversion Ht; subst. constructor; auto. }
  pose proof (saved_holds gunzip i ws Hw Hs) as Hi. pose proof (Forall2_cons _ _ Hi (Forall2_nil _)) as Hj. split; [|split; [|split]].
  - apply (C48_intact_archives_accepted gunzip [i] [_] Hj).
  - intros uz ug. rewrite (C45_copies_every_record gunzip hg uz ug None [i] [_] Hj), records_one. reflexivity.
  - assert (Hun : Forall2 (holds_units gunzip) [i] [map (fun w => (UWarc w, terminator)) ws]).
    { constructor; [|constructor]. split; [|split].
      - clear - Hw. generalize (@nil bytes). induction Hw as [|w ws Ho Hw IH]; intro names; [exact I|]. cbn [map units_ok]. split; [exact Ho|]. split; [apply terminator_ok|apply IH].
      - apply Forall_forall. intros x Hin. apply in_map_iff in Hin as (w & <- & _). exact I.
      - destruct Hi as [_ Hi]. assert (T : units_text (map (fun w => (UWarc w, terminator)) ws) = archive_text (map (fun w => (w, terminator)) ws)).
        { unfold units_text, archive_text. rewrite !map_map. reflexivity. }
        rewrite T. exact Hi. }
    assert (Hbw : becomes_files uuid clock hg fields res rsp [map (fun w => (UWarc w, terminator)) ws] (None, 0) (ws ++ []) (None, 0)).
    { econstructor; [|constructor]. clear. generalize (@nil bytes). induction ws as [|w ws IH]; intro names; cbn [map]; [constructor|]. change (w :: ws) with ([w] ++ ws). econstructor; [constructor|apply IH]. }
    rewrite (C50_converts_every_record gunzip hg uuid clock None fields res rsp [i] _ _ _ H1 H2 Hun Hbw), app_nil_r. reflexivity.
  - intros search opt invert No. rewrite (C47_selects_exactly_the_matching_records gunzip hg search opt invert [i] [_] No Hj), records_one. reflexivity.
Qed.

(** ** Concrete cases *)
From Verif Require Import ToolExamples PropsA2WMore PropsIds.
Definition p_has (c : string) (b : bytes) : bool := contains (B c) b.
(** the first filter keeps two of three records, the second one of those; the other way round too *)
Example C99_filters_met :
  let files := [t_file [t_info; t_cut]; t_file [t_bare]] in
  let i1 := t_file [t_info; t_cut] in let i2 := t_file [t_cut; t_bare] in
  by_field FUrl /\ by_field FType /\ Forall2 (holds_archive plain_id) files [t_archive [t_info; t_cut]; t_archive [t_bare]] /\
  warcfilter plain_id t_none (p_has "http") FUrl false files = (Ret tt, in_data i1) /\ saved i1 (in_data i1) /\
  warcfilter plain_id t_none (p_has "info") FType true files = (Ret tt, in_data i2) /\ saved i2 (in_data i2) /\
  warcfilter plain_id t_none (p_has "info") FType true [i1] = (Ret tt, canonical t_cut) /\
  warcfilter plain_id t_none (p_has "http") FUrl false [i2] = (Ret tt, canonical t_cut).
Proof.
  assert (N1 : FUrl <> FHttpType) by discriminate. assert (N2 : FType <> FHttpType) by discriminate.
  assert (S1 : forall l, saved (t_file l) (in_data (t_file l))) by (intro l; split; [reflexivity|apply name_plain; reflexivity]).
  assert (E1 : warcfilter plain_id t_none (p_has "http") FUrl false [t_file [t_info; t_cut]; t_file [t_bare]] = (Ret tt, in_data (t_file [t_info; t_cut]))) by
    (rewrite (C47_selects_exactly_the_matching_records plain_id t_none _ _ _ _ _ N1 t_two_files); vm_compute; reflexivity).
  assert (E2 : warcfilter plain_id t_none (p_has "info") FType true [t_file [t_info; t_cut]; t_file [t_bare]] = (Ret tt, in_data (t_file [t_cut; t_bare]))) by
    (rewrite (C47_selects_exactly_the_matching_records plain_id t_none _ _ _ _ _ N2 t_two_files); vm_compute; reflexivity).
  cbv zeta. assert (B1 : by_field FUrl) by (left; reflexivity). assert (B2 : by_field FType) by (right; left; reflexivity).
  split; [exact B1|]. split; [exact B2|]. split; [exact t_two_files|]. split; [exact E1|]. split; [apply S1|]. split; [exact E2|]. split; [apply S1|]. split.
  - rewrite (C99_two_filters _ _ _ _ _ _ _ _ _ _ _ _ B1 B2 t_two_files E1 (S1 _)). vm_compute. reflexivity.
  - rewrite (C99_two_filters _ _ _ _ _ _ _ _ _ _ _ _ B2 B1 t_two_files E2 (S1 _)). vm_compute. reflexivity.
Qed.
(** a copy kept compressed, with a stand-in for the compressor that cuts nothing *)
Example C99_packed_met :
  (forall ds, plain_id (concat (map (mkgz plain_id plain_id) ds)) = concat ds) /\
  warc2warc plain_id t_none z_none z_none (Some (mkgz plain_id plain_id)) false [t_file [t_info; t_cut]; t_file [t_bare]] = (Ret tt, in_data (t_file [t_info; t_cut; t_bare])).
Proof. split; [intro ds; cbn [member]; unfold plain_id; rewrite map_id; reflexivity|]. rewrite (C45_copies_every_record _ _ _ _ (Some (mkgz plain_id plain_id)) _ _ t_two_files). vm_compute. reflexivity. Qed.
(** six records made from an ARC file: its conversion succeeds, and what it wrote meets the hypotheses of [C99_converted] *)
Example C99_converted_met : exists out ws final,
  becomes_files ex_uuid ex_clock no_gz [] [] [] [ex_convert] (None, 0) ws final /\ List.length ws = 6 /\
  arc2warc (fun x => x) no_gz ex_uuid ex_clock None false [] [] [] [ex_input] = (Ret tt, out) /\ saved (mkin (B "x.warc") out) out /\
  warcvalid (fun x => x) [mkin (B "x.warc") out] = Ret 0%Z /\
  arc2warc (fun x => x) no_gz ex_uuid ex_clock None false [] [] [] [mkin (B "x.warc") out] = (Ret tt, out).
Proof.
  destruct C50_hypotheses_met as (Hf & Ht & Hu & ws & final & Hb & Hl).
  assert (P : byte_prefixes []) by (intro Q; destruct Q).
  pose proof (C50_converts_every_record (fun x => x) no_gz ex_uuid ex_clock None [] [] [] [ex_input] [ex_convert] ws final P P Hf Hb) as E.
  match type of E with _ = (_, ?o) => exists o, ws, final; assert (Hs : saved (mkin (B "x.warc") o) o) by (split; [reflexivity|apply name_plain; reflexivity]); pose proof (C99_converted (fun x => x) no_gz ex_uuid ex_clock [] [] [] [ex_input] [ex_convert] ws final (mkin (B "x.warc") o) o P P Hf Ht Hu Hb E Hs) as (V & _ & C & _) end.
  split; [exact Hb|]. split; [exact Hl|]. split; [exact E|]. split; [exact Hs|]. split; [exact V|exact C].
Qed.
(** the options matter: a pattern without an option rewrites the record, and where a record has two spellings of Content-Type that changes which one is first *)
Definition two_types : wrec := mkw (B "WARC/1.0") [(B "Content-Type", B "text/plain"); (B "content-type", B "text/html"); (B "Content-Length", B "2")] (B "xy").
Example C99_order_matters_without_an_option :
  let once := warcfilter plain_id t_none (fun _ => true) FAny false in let html := warcfilter plain_id t_none (p_has "html") FContentType false in
  let start := t_file [two_types] in let after f := mkin (B "x.warc") (snd f) in
  snd (html [start]) = [] /\ snd (once [start]) <> snd (once [after (once [start])]) /\ snd (html [after (once [start])]) <> [].
Proof. vm_compute. repeat split; try reflexivity; discriminate. Qed.
