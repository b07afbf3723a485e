(** C80: what warclinks prints and returns.  C81: the links its fallback extractor finds in a page, and what it makes of them. *)
From Verif Require Export Links PropsUnpackMore.
From Coq Require Import String List Lia ZArith.
Open Scope list_scope.

(** ** Specification of C80 *)
(** how going through one argument ends: a file that cannot be opened raises; otherwise every record's content is read *)
Inductive goes_through (gunzip : bytes -> bytes) : option input -> outcome unit -> Prop :=
| goes_missing : forall e, goes_through gunzip None (Raise e)
| goes_file : forall i shown text o, holds_as gunzip i shown text -> show_run shown (unpack_visit true) (fun _ _ => []) 0 text [] o ->
    goes_through gunzip (Some i) o.
Definition raised (o : outcome unit) : bool := match o with Raise _ => true | _ => false end.

(** ** Lemmas for C80 *)
Lemma links_body_dry s out st it : links_body s st it = (fst (fst (dry out st it)), s, snd (dry out st it)) /\ snd (fst (dry out st it)) = out.
Proof.
  unfold dry, links_body, unpack_body. destruct (snd (fst it)) as [r|]; [|split; reflexivity]. unfold links_record, unpack_record.
  destruct (rec_content r st) as [[[[ct bs]|e|] r'] st']; [|split; reflexivity|split; reflexivity].
  destruct (is_some_eq (rec_type r') V_RESPONSE); [|split; reflexivity]. destruct ct; split; reflexivity.
Qed.
Lemma links_dry n : forall s out st, exists o st', read_loop n None true links_body s st = (o, s, st') /\ read_loop n None true dry out st = (o, out, st').
Proof.
  induction n as [|n IH]; intros s out st; [do 2 eexists; split; reflexivity|]. cbn [read_loop]. destruct (read_record st true) as [[it|e|] st1]; [|do 2 eexists; split; reflexivity|do 2 eexists; split; reflexivity].
  destruct (links_body_dry s out st1 it) as [E1 E2]. rewrite E1. destruct (dry out st1 it) as [[o1 out1] st2]. cbn [fst snd] in *. subst out1.
  destruct o1 as [[|]|e|]; [|do 2 eexists; split; reflexivity|do 2 eexists; split; reflexivity|do 2 eexists; split; reflexivity].
  destruct (snd (fst it)); [apply IH|do 2 eexists; split; reflexivity].
Qed.
Lemma holds_open gunzip i shown text : holds_as gunzip i shown text ->
  exists st, open_input gunzip i = Ret st /\ ready_on (negb shown) st 0 text /\ f_strict (s_fh st) = true.
Proof.
  unfold holds_as. destruct shown; intro H; [rewrite (open_plain _ _ _ H)|rewrite (open_gz _ _ _ H)]; eexists; (split; [reflexivity|]); (split; [repeat split|reflexivity]).
Qed.
Lemma holds_some gunzip i : exists shown text, holds_as gunzip i shown text.
Proof.
  destruct (endswith (B ".gz") (in_name i)) eqn:E1.
  - exists false, (gunzip (in_data i)). split; [left; apply endswith_iff; exact E1|reflexivity].
  - destruct (startswith [31; 139]%N (in_data i)) eqn:E2.
    + exists false, (gunzip (in_data i)). split; [right; apply startswith_iff; exact E2|reflexivity].
    + exists true, (in_data i). split; [|split; [|reflexivity]]; intros t Ht.
      * assert (X : endswith (B ".gz") (in_name i) = true) by (apply endswith_iff; eauto). congruence.
      * assert (X : startswith [31; 139]%N (in_data i) = true) by (apply startswith_iff; eauto). congruence.
Qed.
Lemma goes_loop gunzip i o s : goes_through gunzip (Some i) o ->
  exists st st', open_input gunzip i = Ret st /\ for_read_records None true links_body s st = (o, s, st').
Proof.
  intro H. inversion H as [|? shown text ? Hh Hr]; subst. destruct (holds_open _ _ _ _ Hh) as (st & Eo & Hrd & Hs).
  exists st. rewrite <- (negb_involutive shown) in Hr. rewrite <- Hs in Hr. apply (C73_loop_any_file _ _ _ _ _ Hrd) in Hr as [st' E].
  unfold unpack_records, for_read_records in E. unfold for_read_records.
  destruct (dry_loop (file_fuel (s_fh st)) ([], 0) [] st) as (o1 & st1 & E1 & E2). destruct (links_dry (file_fuel (s_fh st)) s [] st) as (o2 & st2 & E3 & E4).
  rewrite E in E1. rewrite E2 in E4. inversion E1; subst. inversion E4; subst. eauto.
Qed.
Lemma goes_total gunzip a : exists o, goes_through gunzip a o.
Proof.
  destruct a as [i|]; [|exists (Raise EValueError); constructor]. destruct (holds_some gunzip i) as (shown & text & H).
  destruct (holds_open _ _ _ _ H) as (st & Eo & Hrd & Hs). destruct (dry_loop (file_fuel (s_fh st)) ([], 0) [] st) as (o1 & st1 & E1 & E2).
  exists o1. apply (goes_file gunzip i shown text o1 H). rewrite <- (negb_involutive shown), <- Hs. apply (C73_loop_any_file _ _ _ _ _ Hrd). exists st1. exact E1.
Qed.

(** ** C80 *)
(** no link is ever printed, whatever the files hold *)
Theorem C80_prints_nothing : forall gunzip files, snd (warclinks gunzip files) = [].
Proof.
  intros gunzip files. unfold warclinks. generalize 0%Z. induction files as [|[i|] t IH]; intro ret; [reflexivity| |apply IH]. cbn [links_files].
  destruct (goes_total gunzip (Some i)) as [o Ho]. destruct (goes_loop _ _ _ [] Ho) as (st & st' & E1 & E2). rewrite E1, E2. destruct o; [apply IH|apply IH|reflexivity].
Qed.
(** and the status is minus the number of files that could not be opened or gone through to their end; the tool runs for ever
    exactly when one of them has no end *)
Theorem C80_status : forall gunzip files outcomes, Forall2 (goes_through gunzip) files outcomes ->
  (Forall (fun o => o <> Diverge) outcomes -> fst (warclinks gunzip files) = Ret (- Z.of_nat (List.length (filter raised outcomes)))%Z) /\
  (~ Forall (fun o => o <> Diverge) outcomes -> fst (warclinks gunzip files) = Diverge).
Proof.
  intros gunzip files outcomes H. unfold warclinks.
  assert (G : forall ret, (Forall (fun o => o <> Diverge) outcomes -> fst (links_files gunzip files [] ret) = Ret (ret - Z.of_nat (List.length (filter raised outcomes)))%Z) /\
    (~ Forall (fun o => o <> Diverge) outcomes -> fst (links_files gunzip files [] ret) = Diverge)).
  { induction H as [|a o files outcomes Ha Hf IH]; intro ret; [split; [intros _; cbn; f_equal; lia|intro X; destruct X; constructor]|]. destruct a as [i|].
    - destruct (goes_loop _ _ _ [] Ha) as (st & st' & E1 & E2). cbn [links_files]. rewrite E1, E2. destruct o as [[]|e|]; cbn [filter raised].
      + split; intro X; apply IH; [inversion X; assumption|]. intro Y. apply X. constructor; [discriminate|exact Y].
      + split; intro X; [|apply IH; intro Y; apply X; constructor; [discriminate|exact Y]]. rewrite (proj1 (IH _)) by (inversion X; assumption). f_equal. cbn [List.length]. lia.
      + split; [intro X; inversion X; congruence|reflexivity].
    - inversion Ha; subst. cbn [links_files filter raised].
      split; intro X; [|apply IH; intro Y; apply X; constructor; [discriminate|exact Y]]. rewrite (proj1 (IH _)) by (inversion X; assumption). f_equal. cbn [List.length]. lia. }
  destruct (G 0%Z) as [G1 G2]. split; [|exact G2]. intro X. rewrite (G1 X). f_equal.
Qed.
(** every list of files has such outcomes, and complete archives succeed *)
Theorem C80_status_of_archives : forall gunzip (files : list input) (missing : nat),
  Forall (fun i => exists text, file_holds gunzip i text /\ valid_text text) files ->
  warclinks gunzip (map Some files ++ repeat None missing) = (Ret (- Z.of_nat missing)%Z, []).
Proof.
  intros gunzip files missing H.
  assert (F : Forall2 (goes_through gunzip) (map Some files ++ repeat None missing) (repeat (Ret tt) (List.length files) ++ repeat (Raise EValueError) missing)).
  { apply Forall2_app; [|induction missing; constructor; [constructor|assumption]]. induction H as [|i t (text & Hh & Hv) Ht IH]; [constructor|]. cbn [map List.length repeat]. constructor; [|exact IH].
    assert (X : exists shown, holds_as gunzip i shown text) by (destruct Hh as [Hh|Hh]; [exists true|exists false]; exact Hh). destruct X as [shown X].
    apply (goes_file gunzip i shown text _ X). destruct (holds_open _ _ _ _ X) as (st & _ & Hrd & Hs). rewrite <- (negb_involutive shown), <- Hs.
    apply (C73_loop_any_file _ _ _ _ _ Hrd). exact (C73_loop_complete_archive _ _ _ _ Hrd Hv). }
  rewrite (surjective_pairing (warclinks _ _)), C80_prints_nothing. f_equal. rewrite (proj1 (C80_status _ _ _ F)).
  - do 3 f_equal. rewrite filter_app, app_length. replace (filter raised (repeat (Ret tt) (List.length files))) with (@nil (outcome unit)) by (clear; induction (List.length files); [reflexivity|cbn [repeat filter raised]; assumption]).
    cbn [List.length]. replace (filter raised (repeat (Raise EValueError) missing)) with (repeat (@Raise unit EValueError) missing) by (clear; induction missing; [reflexivity|cbn [repeat filter raised]; f_equal; assumption]).
    apply repeat_length.
  - apply Forall_app. split; apply Forall_forall; intros x Hx; apply repeat_spec in Hx; subst; discriminate.
Qed.

(** ** Specification of C81 *)
(** where links are found *)
Definition link_places : list (text * text) := Eval vm_compute in
  map (fun p => (B (fst p), B (snd p)))
    [("a", "href"); ("applet", "code"); ("area", "href"); ("bgsound", "src"); ("body", "background"); ("embed", "href"); ("embed", "src");
     ("fig", "src"); ("form", "action"); ("frame", "src"); ("iframe", "src"); ("img", "href"); ("img", "src"); ("img", "lowsrc"); ("input", "src");
     ("link", "href"); ("layer", "src"); ("object", "data"); ("overlay", "src"); ("script", "src"); ("table", "background"); ("td", "background");
     ("th", "background")]%string.
(** the parts of a text between the characters [sep] *)
Definition pieces (sep : N) (s : text) (ps : list text) : Prop := ps <> [] /\ join [sep] ps = s /\ Forall (fun p => ~ In sep p) ps.
(** Unicode's white space, as str.isspace() has it *)
Definition white : list N :=
  [9; 10; 11; 12; 13; 28; 29; 30; 31; 32; 133; 160; 5760; 8192; 8193; 8194; 8195; 8196; 8197; 8198; 8199; 8200; 8201; 8202;
   8232; 8233; 8239; 8287; 12288]%N.
(** a text without the white space around it *)
Definition stripped (v u : text) : Prop :=
  exists a b, v = a ++ u ++ b /\ (forall c, In c (a ++ b) -> In c white) /\
    (forall c t, u = c :: t -> ~ In c white) /\ (forall t c, u = t ++ [c] -> ~ In c white).
(** url=LINK, where LINK ends at the next equals sign *)
Definition names_url (piece v : text) : Prop :=
  exists name more, piece = name ++ B "=" ++ v ++ more /\ lower name = B "url" /\ ~ In 61%N name /\ ~ In 61%N v /\ (more = [] \/ exists t, more = B "=" ++ t).
Inductive refresh_link (piece : text) : list text -> Prop :=
| refresh_yes : forall v u, names_url piece v -> stripped v u -> refresh_link piece [u]
| refresh_no : (forall v, ~ names_url piece v) -> refresh_link piece [].
Inductive link_in (tag : text) : text * option text -> list text -> Prop :=
| link_plain : forall k v, In (tag, k) link_places -> v <> [] -> link_in tag (k, Some v) [v]
| link_meta : forall v ps us, tag = B "meta" -> pieces 59 v ps -> Forall2 refresh_link ps us -> link_in tag (B "content", Some v) (concat us)
| link_none : forall k v, v = None \/ v = Some [] \/ (~ In (tag, k) link_places /\ (tag, k) <> (B "meta", B "content")) -> link_in tag (k, v) [].
(** the bases a tag sets: the values of the attributes href of a tag base *)
Definition bases_of (t : text * attrs) : list text :=
  if text_eqb (fst t) (B "base") then flat_map (fun a => match a with (k, Some ((_ :: _) as v)) => if text_eqb k (B "href") then [v] else [] | _ => [] end) (snd t) else [].
(** the directory of a path: what stands before its last slashes, or these *)
Inductive dir_of : text -> text -> Prop :=
| dir_none : forall p, ~ In 47%N p -> dir_of p []
| dir_top : forall slashes tail, slashes <> [] -> (forall c, In c slashes -> c = 47%N) -> ~ In 47%N tail -> dir_of (slashes ++ tail) slashes
| dir_above : forall d c slashes tail, c <> 47%N -> slashes <> [] -> (forall c, In c slashes -> c = 47%N) -> ~ In 47%N tail ->
    dir_of ((d ++ [c]) ++ slashes ++ tail) (d ++ [c]).
Inductive dir_up : nat -> text -> text -> Prop :=
| up_here : forall p, dir_up 0 p p
| up_more : forall k p q r, dir_of p q -> dir_up k q r -> dir_up (S k) p r.
(** dots: the leading "../" and "./" of a relative path *)
Definition dots (steps : list bool) : text := concat (map (fun up : bool => if up then B "../" else B "./") steps).
Definition no_dots (p : text) : Prop := (forall t, p <> B "../" ++ t) /\ (forall t, p <> B "./" ++ t).
(** a path below a directory *)
Inductive below : text -> text -> text -> Prop :=
| below_rooted : forall dir t, below dir (B "/" ++ t) (B "/" ++ t)
| below_none : forall p, (forall t, p <> B "/" ++ t) -> below [] p p
| below_slash : forall dir p, (forall t, p <> B "/" ++ t) -> below (dir ++ B "/") p ((dir ++ B "/") ++ p)
| below_dir : forall dir c p, (forall t, p <> B "/" ++ t) -> c <> 47%N -> below (dir ++ [c]) p ((dir ++ [c]) ++ B "/" ++ p).
Section Resolve.
  Variables (urlparse : text -> outcome parts) (urlunparse : parts -> text).
  Inductive resolved (root : parts) (link : text) : text -> Prop :=
  | resolved_absolute : forall p, urlparse link = Ret p -> u_netloc p <> [] -> resolved root link link
  | resolved_rooted : forall p t, urlparse link = Ret p -> u_netloc p = [] -> u_path p = B "/" ++ t ->
      resolved root link (urlunparse (mkparts (u_scheme root) (u_netloc root) (u_path p) (u_params p) (u_query p)))
  | resolved_relative : forall p steps rest dir path, urlparse link = Ret p -> u_netloc p = [] -> (forall t, u_path p <> B "/" ++ t) ->
      u_path p = dots steps ++ rest -> no_dots rest -> dir_up (S (List.length (filter (fun up => up) steps))) (u_path root) dir -> below dir rest path ->
      resolved root link (urlunparse (mkparts (u_scheme root) (u_netloc root) path (u_params p) (u_query p))).
End Resolve.

(** ** Lemmas for C81 *)
Lemma text_eqb_iff a b : text_eqb a b = true <-> a = b.
Proof. apply bytes_eqb_eq. Qed.
Lemma split_all_pieces sep s : pieces sep s (split_all sep s).
Proof.
  induction s as [|c t (Hn & Hj & Hf)]; [repeat split; [discriminate|constructor; [intros []|constructor]]|]. cbn [split_all]. destruct (N.eqb_spec c sep) as [->|Hc].
  - repeat split; [discriminate| |constructor; [intros []|exact Hf]]. destruct (split_all sep t) as [|p ps]; [contradiction|]. change (join [sep] ([] :: p :: ps)) with (sep :: join [sep] (p :: ps)). f_equal. exact Hj.
  - destruct (split_all sep t) as [|p ps]; [contradiction|]. repeat split; [discriminate| |].
    + transitivity (c :: join [sep] (p :: ps)); [destruct ps; reflexivity|]. f_equal. exact Hj.
    + inversion Hf; subst. constructor; [|assumption]. intros [E|E]; [congruence|contradiction].
Qed.
Lemma text_space_white c : text_space c = true <-> In c white.
Proof.
  unfold text_space, white. rewrite !Bool.orb_true_iff, !Bool.andb_true_iff, !N.eqb_eq, !N.leb_le.
  cbn [In]. lia.
Qed.
Lemma text_strip_spec v : stripped v (text_strip v).
Proof.
  unfold text_strip. destruct (drop_while_split text_space v) as (a & E1 & Ha). set (w := drop_while text_space v) in *.
  destruct (drop_while_split text_space (rev w)) as (b & E2 & Hb). set (x := drop_while text_space (rev w)) in *.
  assert (Ew : w = rev x ++ rev b) by (rewrite <- (rev_involutive w), E2, rev_app_distr; reflexivity).
  assert (N : forall c, text_space c = false -> ~ In c white) by (intros c H X; apply text_space_white in X; congruence).
  exists a, (rev b). split; [rewrite <- Ew; exact E1|]. rewrite forallb_forall in *. split.
  { intros c Hc. apply text_space_white. apply in_app_or in Hc as [Hc|Hc]; [apply Ha, Hc|apply Hb, in_rev, Hc]. }
  split.
  - intros c t E. apply N, (drop_while_head text_space v c (t ++ rev b)). fold w. rewrite Ew, E. reflexivity.
  - intros t c E. apply N, (drop_while_head text_space (rev w) c (rev t)). fold x. rewrite <- (rev_involutive x), E, rev_app_distr. reflexivity.
Qed.
Lemma meta_pair_spec p : refresh_link p (meta_pair p).
Proof.
  unfold meta_pair. cbn [split_max]. destruct (split_once 61 p) as [[k b]|] eqn:E1.
  - apply split_once_some in E1 as [-> Hk].
    assert (U : forall v, names_url (k ++ 61%N :: b) v -> lower k = B "url" /\ exists more, b = v ++ more /\ ~ In 61%N v /\ (more = [] \/ exists t, more = B "=" ++ t)).
    { intros v (name & more & E & Hl & Hn & Hv & Hm). change (name ++ B "=" ++ v ++ more) with (name ++ 61%N :: (v ++ more)) in E.
      assert (X : split_once 61 (k ++ 61%N :: b) = Some (name, v ++ more)) by (apply split_once_some; auto). rewrite split_once_hit in X by exact Hk. injection X as -> ->. split; [exact Hl|]. exists more. auto. }
    assert (Y : forall v more, lower k = B "url" -> b = v ++ more -> ~ In 61%N v -> (more = [] \/ exists t, more = B "=" ++ t) -> names_url (k ++ 61%N :: b) v).
    { intros v more Hl -> Hv Hm. exists k, more. repeat split; auto. }
    destruct (split_once 61 b) as [[v m]|] eqn:E2; [apply split_once_some in E2 as [-> Hv]|apply split_once_none in E2];
      (destruct (text_eqb (lower k) (B "url")) eqn:El; [apply text_eqb_iff in El|]).
    + apply (refresh_yes _ v); [|apply text_strip_spec]. apply (Y v (61%N :: m)); auto. right. exists m. reflexivity.
    + apply refresh_no. intros v' H. apply U in H as [H _]. apply text_eqb_iff in H. congruence.
    + apply (refresh_yes _ b); [|apply text_strip_spec]. apply (Y b []); auto. symmetry. apply app_nil_r.
    + apply refresh_no. intros v' H. apply U in H as [H _]. apply text_eqb_iff in H. congruence.
  - apply split_once_none in E1. apply refresh_no. intros v (name & more & -> & _). apply E1. apply in_or_app. right. left. reflexivity.
Qed.
Lemma places_table : link_places = flat_map (fun e => map (pair (fst e)) (snd e)) tag_table. Proof. vm_compute. reflexivity. Qed.
Fixpoint distinct (l : list text) : bool := match l with [] => true | t :: l => negb (existsb (text_eqb t) l) && distinct l end.
Lemma find_distinct (l : list (text * list text)) t ns : distinct (map fst l) = true -> In (t, ns) l -> find (fun e => text_eqb (fst e) t) l = Some (t, ns).
Proof.
  induction l as [|[t' ns'] l IH]; [intros _ []|]. cbn [map fst distinct find]. intros Hd [E|Hin].
  - injection E as -> ->. rewrite (proj2 (text_eqb_iff t t) eq_refl). reflexivity.
  - apply andb_true_iff in Hd as [Hd1 Hd2]. destruct (text_eqb t' t) eqn:Et; [|exact (IH Hd2 Hin)]. apply text_eqb_iff in Et. subst t'. exfalso.
    apply negb_true_iff in Hd1. assert (X : existsb (text_eqb t) (map fst l) = true); [|congruence]. apply existsb_exists. exists t. split; [|apply text_eqb_iff; reflexivity].
    change t with (fst (t, ns)). apply in_map. exact Hin.
Qed.
Lemma table_places tag k : In (tag, k) link_places <-> exists names, table_get tag = Some names /\ existsb (text_eqb k) names = true.
Proof.
  rewrite places_table, in_flat_map. split.
  - intros ([t ns] & Hin & Hk). cbn [fst snd] in Hk. apply in_map_iff in Hk as (k' & E & Hk). injection E as -> ->. exists ns. unfold table_get. rewrite (find_distinct tag_table tag ns eq_refl Hin).
    split; [reflexivity|]. apply existsb_exists. exists k. split; [exact Hk|apply text_eqb_iff; reflexivity].
  - intros (ns & E & Hk). unfold table_get in E. destruct (find _ tag_table) as [[t ns']|] eqn:Ef; [|discriminate]. injection E as <-. apply find_some in Ef as [Hin Et]. apply text_eqb_iff in Et. cbn [fst snd] in *. subst t.
    exists (tag, ns'). split; [exact Hin|]. apply existsb_exists in Hk as (k' & Hk & E). apply text_eqb_iff in E. subst k'. apply in_map. exact Hk.
Qed.
Definition one_attr (names : list text) (kv : text * option text) : list text :=
  match snd kv with Some ((_ :: _) as v) => if existsb (text_eqb (fst kv)) names then [v] else [] | _ => [] end.
Lemma Forall2_map_self {A B} (P : A -> B -> Prop) (f : A -> B) l : (forall a, P a (f a)) -> Forall2 P l (map f l).
Proof. intro H. induction l; constructor; auto. Qed.
Lemma handle_found tag a links base : exists fs, Forall2 (link_in tag) a fs /\ handle_starttag (links, base) tag a = (links ++ concat fs, last (bases_of (tag, a)) base).
Proof.
  unfold handle_starttag. destruct (text_eqb tag (B "meta")) eqn:Em.
  - apply text_eqb_iff in Em. subst tag. exists (map (fun kv => flat_map (fun v => flat_map meta_pair (split_all 59 v)) (one_attr [B "content"] kv)) a). split.
    + apply Forall2_map_self. intros [k [[|c v]|]]; unfold one_attr; cbn [fst snd]; [apply link_none; auto|..|apply link_none; auto].
      assert (X : forall k', In (B "meta", k') link_places -> False) by (intros k' H; apply table_places in H as (ns & H & _); discriminate).
      cbn [existsb]. rewrite orb_false_r. destruct (text_eqb k (B "content")) eqn:Ek.
      * apply text_eqb_iff in Ek. subst k. cbn [flat_map]. rewrite app_nil_r, flat_map_concat_map. apply (link_meta _ _ (split_all 59 (c :: v))); [reflexivity|apply split_all_pieces|].
        apply Forall2_map_self. apply meta_pair_spec.
      * apply link_none. right. right. split; [exact (X k)|]. intro E. injection E as E. apply text_eqb_iff in E. congruence.
    + f_equal. f_equal. unfold meta_extractor, attr_extractor. rewrite <- flat_map_concat_map. induction a as [|kv a IH]; [reflexivity|]. cbn [flat_map]. rewrite flat_map_app. f_equal. exact IH.
  - assert (Hm : tag <> B "meta") by (intro E; apply text_eqb_iff in E; congruence). assert (Hmk : forall k, (tag, k) <> (B "meta", B "content")) by congruence.
    destruct (text_eqb tag (B "base")) eqn:Eb.
    + exists (map (fun _ => []) a). split.
      * apply Forall2_map_self. intros [k v]. apply link_none. right. right. split; [|apply Hmk]. apply text_eqb_iff in Eb. subst tag. intro H. apply table_places in H as (ns & H & _). discriminate.
      * unfold bases_of. cbn [fst snd]. rewrite Eb.
        assert (E : attr_extractor [B "href"] a = flat_map (fun a => match a with (k, Some ((_ :: _) as v)) => if text_eqb k (B "href") then [v] else [] | _ => [] end) a).
        { unfold attr_extractor. clear. induction a as [|[k [[|c v]|]] a IH]; [reflexivity|exact IH| |exact IH]. cbn [flat_map fst snd existsb]. rewrite orb_false_r. f_equal. exact IH. }
        rewrite <- E. replace (concat (map (fun _ : text * option text => @nil text) a)) with (@nil text) by (clear; induction a; [reflexivity|assumption]). rewrite app_nil_r.
        destruct (attr_extractor [B "href"] a) as [|h hs]; [reflexivity|]. f_equal. clear. generalize h. induction hs as [|x hs IH]; intro h0; [reflexivity|]. cbn [last] in *. destruct hs; [reflexivity|]. apply (IH x).
    + unfold bases_of. cbn [fst snd]. rewrite Eb. cbn [last]. destruct (table_get tag) as [ns|] eqn:Et.
      * exists (map (one_attr ns) a). split; [|rewrite <- flat_map_concat_map; reflexivity]. apply Forall2_map_self. intros [k [[|c v]|]]; unfold one_attr; cbn [fst snd]; [apply link_none; auto|..|apply link_none; auto].
        destruct (existsb (text_eqb k) ns) eqn:Ek; [apply link_plain; [apply table_places; eauto|discriminate]|]. apply link_none. right. right. split; [|apply Hmk].
        intro H. apply table_places in H as (ns' & H1 & H2). rewrite Et in H1. injection H1 as <-. congruence.
      * exists (map (fun _ => []) a). split; [|replace (concat (map (fun _ : text * option text => @nil text) a)) with (@nil text) by (clear; induction a; [reflexivity|assumption]); rewrite app_nil_r; reflexivity].
        apply Forall2_map_self. intros [k v]. apply link_none. right. right. split; [|apply Hmk]. intro H. apply table_places in H as (ns' & H1 & H2). congruence.
Qed.
Lemma last_app {A} (a b : list A) d : last (a ++ b) d = last b (last a d).
Proof.
  destruct b as [|x b]; [rewrite app_nil_r; reflexivity|]. revert x. induction a as [|y a IH]; intro x.
  - cbn [app]. cbn [last]. assert (G : forall l (u v : A), l <> [] -> last l u = last l v) by (induction l as [|z [|w l] IHl]; intros u v H; [contradiction|reflexivity|apply IHl; discriminate]).
    apply (G (x :: b)). discriminate.
  - cbn [app]. transitivity (last (a ++ x :: b) d); [destruct a; reflexivity|]. rewrite IH.
    assert (G : forall l (u v : A), l <> [] -> last l u = last l v) by (induction l as [|z [|w l] IHl]; intros u v H; [contradiction|reflexivity|apply IHl; discriminate]).
    apply G. discriminate.
Qed.

(** ** C81 *)
(** the links of a page stand in the order of its tags and attributes; the last base named holds for all of them *)
Theorem C81_links_found : forall base tags, exists found,
  Forall2 (fun t ls => exists parts, Forall2 (link_in (fst t)) (snd t) parts /\ ls = concat parts) tags found /\
  handle_all base tags = (concat found, last (flat_map bases_of tags) base).
Proof.
  intros base tags. unfold handle_all. assert (G : forall links base, exists found,
    Forall2 (fun t ls => exists parts, Forall2 (link_in (fst t)) (snd t) parts /\ ls = concat parts) tags found /\
    fold_left (fun p t => handle_starttag p (fst t) (snd t)) tags (links, base) = (links ++ concat found, last (flat_map bases_of tags) base)).
  { clear base. induction tags as [|[tag a] tags IH]; intros links base; [exists []; split; [constructor|cbn; rewrite app_nil_r; reflexivity]|].
    cbn [fold_left fst snd]. destruct (handle_found tag a links base) as (fs & Hf & ->). destruct (IH (links ++ concat fs) (last (bases_of (tag, a)) base)) as (found & H & E).
    exists (concat fs :: found). split; [constructor; [exists fs; split; [exact Hf|reflexivity]|exact H]|]. rewrite E. cbn [concat flat_map]. rewrite <- app_assoc, last_app. reflexivity. }
  destruct (G [] base) as (found & H & E). exists found. auto.
Qed.
Lemma all_slash p : forallb (N.eqb SLASH) p = true -> forall c, In c p -> c = 47%N.
Proof. intros H c Hc. rewrite forallb_forall in H. apply H in Hc. apply N.eqb_eq in Hc. symmetry. exact Hc. Qed.
Lemma path_head_spec p : dir_of p (path_head p).
Proof.
  destruct (in_dec N.eq_dec SLASH p) as [Hin|Hn].
  - assert (X : exists a b, p = a ++ SLASH :: b /\ ~ In SLASH b).
    { apply in_split in Hin as (a0 & b0 & ->). assert (G : forall n a b, List.length b <= n -> exists a' b', a ++ SLASH :: b = a' ++ SLASH :: b' /\ ~ In SLASH b').
      { induction n as [|n IH]; intros a b Hb; [destruct b; [exists a, []; split; [reflexivity|intros []]|cbn in Hb; lia]|].
        destruct (in_dec N.eq_dec SLASH b) as [Hi|Hi]; [|exists a, b; auto]. apply in_split in Hi as (x & y & ->). rewrite app_length in Hb. cbn [List.length] in Hb.
        destruct (IH (a ++ SLASH :: x) y ltac:(lia)) as (a' & b' & E & Hb'). exists a', b'. split; [|exact Hb']. rewrite <- E, <- app_assoc. reflexivity. }
      exact (G _ a0 b0 (le_n _)). }
    destruct X as (a & b & -> & Hb). unfold path_head. rewrite rfind_last by exact Hb.
    replace (firstn (S (List.length a)) (a ++ SLASH :: b)) with (a ++ [SLASH]).
    2:{ rewrite firstn_app, firstn_all2 by lia. replace (S (List.length a) - List.length a) with 1 by lia. reflexivity. }
    change (a ++ SLASH :: b) with (a ++ [SLASH] ++ b). rewrite app_assoc. destruct (forallb (N.eqb SLASH) (a ++ [SLASH])) eqn:Ef.
    + apply dir_top; [destruct a; discriminate|apply all_slash; exact Ef|exact Hb].
    + destruct (drop_while_split (N.eqb SLASH) (rev (a ++ [SLASH]))) as (s & Es & Hs). set (h := drop_while (N.eqb SLASH) (rev (a ++ [SLASH]))) in *.
      assert (Ea : a ++ [SLASH] = rev h ++ rev s) by (rewrite <- (rev_involutive (a ++ [SLASH])), Es, rev_app_distr; reflexivity).
      assert (Hall : forallb (N.eqb SLASH) (rev s) = true) by (rewrite forallb_forall in *; intros c Hc; apply Hs, in_rev; exact Hc).
      destruct h as [|c t] eqn:Eh; [rewrite Ea in Ef; cbn [rev app] in Ef; congruence|]. pose proof (drop_while_head _ _ _ _ Eh) as Hc.
      rewrite Ea, <- app_assoc. cbn [rev]. apply dir_above; [intro E; subst c; discriminate| |apply all_slash; exact Hall|exact Hb].
      intro E. rewrite E, app_nil_r in Ea. cbn [rev] in Ea. apply app_inj_tail in Ea as [_ Ec]. subst c. discriminate.
  - unfold path_head. rewrite rfind_none by exact Hn. apply dir_none. exact Hn.
Qed.
Lemma slashes_only (s : text) : (forall c, In c s -> c = 47%N) -> forallb (N.eqb SLASH) s = true.
Proof. intro H. apply forallb_forall. intros c Hc. rewrite (H c Hc). reflexivity. Qed.
Lemma head_of (a s tail : text) : s <> [] -> (forall c, In c s -> c = 47%N) -> ~ In 47%N tail ->
  match rfind SLASH (a ++ s ++ tail) with Some i => firstn (S i) (a ++ s ++ tail) | None => [] end = a ++ s.
Proof.
  intros Hs Ha Ht. destruct (exists_last Hs) as (s' & c & ->). assert (c = SLASH) by (apply Ha, in_or_app; right; left; reflexivity). subst c.
  replace (a ++ (s' ++ [SLASH]) ++ tail) with ((a ++ s') ++ SLASH :: tail) by (rewrite <- !app_assoc; reflexivity). rewrite rfind_last by exact Ht.
  rewrite firstn_app, firstn_all2 by lia. replace (S (List.length (a ++ s')) - List.length (a ++ s')) with 1 by lia. cbn [firstn]. rewrite <- app_assoc. reflexivity.
Qed.
Lemma path_head_eq p q : dir_of p q -> path_head p = q.
Proof.
  intro H. unfold path_head. inversion H as [? Hn|s t Hs Ha Ht|d c s t Hc Hs Ha Ht]; subst.
  - rewrite rfind_none by exact Hn. reflexivity.
  - pose proof (head_of [] q t Hs Ha Ht) as E. cbn [app] in E. rewrite E, (slashes_only _ Ha). reflexivity.
  - rewrite (head_of (d ++ [c]) s t Hs Ha Ht). destruct (forallb (N.eqb SLASH) ((d ++ [c]) ++ s)) eqn:Ef.
    + exfalso. apply Hc. apply (all_slash _ Ef). rewrite <- app_assoc. apply in_or_app. right. left. reflexivity.
    + rewrite rev_app_distr, drop_while_app_all by (apply slashes_only; intros x Hx; apply Ha, in_rev; exact Hx).
      rewrite rev_app_distr. cbn [rev app drop_while]. destruct (N.eqb_spec SLASH c) as [E|_]; [destruct Hc; symmetry; exact E|]. cbn [rev]. rewrite rev_involutive. reflexivity.
Qed.
Lemma dir_up_iff k : forall p q, dir_up k p q <-> Nat.iter k path_head p = q.
Proof.
  induction k as [|k IH]; intros p q.
  - split; [intro H; inversion H; reflexivity|]. cbn. intros <-. constructor.
  - replace (Nat.iter (S k) path_head p) with (Nat.iter k path_head (path_head p)) by (clear; induction k; [reflexivity|cbn; f_equal; exact IHk]). split.
    + intro H. inversion H as [|? ? q' ? H1 H2]; subst. rewrite (path_head_eq _ _ H1). apply IH. exact H2.
    + intro H. econstructor; [apply path_head_spec|]. apply IH. exact H.
Qed.
Lemma starts_not s p : (forall t, p <> s ++ t) <-> startswith s p = false.
Proof.
  split.
  - intro H. destruct (startswith s p) eqn:E; [|reflexivity]. apply startswith_iff in E as [t E]. destruct (H t E).
  - intros H t E. assert (X : startswith s p = true) by (apply startswith_iff; eauto). congruence.
Qed.
Lemma below_iff dir p x : below dir p x <-> join_path dir p = x.
Proof.
  unfold join_path, is_abs. split.
  - intro H. inversion H as [? t|? Hp|d ? Hp|d c ? Hp Hc]; subst; [reflexivity|..]; try (apply starts_not in Hp; change (B "/") with [SLASH] in Hp; rewrite Hp).
    + reflexivity.
    + destruct (d ++ B "/") eqn:E; [destruct d; discriminate|]. rewrite <- E. assert (X : ends_slash (d ++ B "/") = true) by (apply endswith_iff; eauto). rewrite X. reflexivity.
    + destruct (d ++ [c]) eqn:E; [destruct d; discriminate|]. rewrite <- E. destruct (ends_slash (d ++ [c])) eqn:Es; [|reflexivity]. apply endswith_iff in Es as [u Eu]. apply app_inj_tail in Eu as [_ Eu]. destruct Hc. exact Eu.
  - destruct (startswith [SLASH] p) eqn:Ep; intros <-.
    + apply startswith_iff in Ep as [t ->]. apply (below_rooted dir t).
    + assert (Hp : forall t, p <> B "/" ++ t) by (apply starts_not; exact Ep). destruct dir as [|c0 d0]; [apply below_none; exact Hp|]. set (d := c0 :: d0).
      assert (Hd : d <> []) by discriminate. clearbody d. destruct (exists_last Hd) as (d' & c & ->). destruct (N.eqb_spec c SLASH) as [->|Hc].
      * assert (X : ends_slash (d' ++ [SLASH]) = true) by (apply endswith_iff; eauto). rewrite X. apply (below_slash d' p Hp).
      * destruct (ends_slash (d' ++ [c])) eqn:Es; [apply endswith_iff in Es as [u Eu]; apply app_inj_tail in Eu as [_ Eu]; congruence|]. apply (below_dir d' c p Hp Hc).
Qed.
Definition ups (steps : list bool) : nat := List.length (filter (fun up => up) steps).
Lemma iter_head k d : Nat.iter k path_head (path_head d) = Nat.iter (S k) path_head d.
Proof. induction k; [reflexivity|]. cbn [Nat.iter nat_rect] in *. unfold Nat.iter in *. cbn. f_equal. exact IHk. Qed.
Lemma follow_dots_eq steps rest : no_dots rest -> forall fuel dir, List.length (dots steps ++ rest) < fuel -> follow_dots fuel dir (dots steps ++ rest) = Ret (Nat.iter (ups steps) path_head dir, rest).
Proof.
  intros [H1 H2]. induction steps as [|[|] steps IH]; intros fuel dir Hf; (destruct fuel as [|fuel]; [lia|]).
  - cbn [follow_dots]. change (dots [] ++ rest) with rest. rewrite (proj1 (starts_not _ _) H1), (proj1 (starts_not _ _) H2). reflexivity.
  - change (dots (true :: steps) ++ rest) with (B "../" ++ (dots steps ++ rest)) in *. cbn [follow_dots].
    replace (startswith (B "../") (B "../" ++ dots steps ++ rest)) with true by (symmetry; apply startswith_iff; eauto).
    change (skipn 3 (B "../" ++ dots steps ++ rest)) with (dots steps ++ rest). rewrite IH by (rewrite app_length in Hf; cbn [List.length B] in Hf; change (List.length (B "../")) with 3 in Hf; lia).
    rewrite iter_head. reflexivity.
  - change (dots (false :: steps) ++ rest) with (B "./" ++ (dots steps ++ rest)) in *. cbn [follow_dots].
    replace (startswith (B "../") (B "./" ++ dots steps ++ rest)) with false by reflexivity.
    replace (startswith (B "./") (B "./" ++ dots steps ++ rest)) with true by (symmetry; apply startswith_iff; eauto).
    change (skipn 2 (B "./" ++ dots steps ++ rest)) with (dots steps ++ rest). rewrite IH by (rewrite app_length in Hf; change (List.length (B "./")) with 2 in Hf; lia). reflexivity.
Qed.
Lemma dots_parts n : forall p, List.length p <= n -> exists steps rest, p = dots steps ++ rest /\ no_dots rest.
Proof.
  induction n as [|n IH]; intros p Hp.
  - destruct p; [|cbn in Hp; lia]. exists [], []. split; [reflexivity|]. split; discriminate.
  - destruct (startswith (B "../") p) eqn:E1; [|destruct (startswith (B "./") p) eqn:E2].
    + apply startswith_iff in E1 as [t ->]. rewrite app_length in Hp. change (List.length (B "../")) with 3 in Hp. destruct (IH t ltac:(lia)) as (steps & rest & -> & H). exists (true :: steps), rest. auto.
    + apply startswith_iff in E2 as [t ->]. rewrite app_length in Hp. change (List.length (B "./")) with 2 in Hp. destruct (IH t ltac:(lia)) as (steps & rest & -> & H). exists (false :: steps), rest. auto.
    + exists [], p. split; [reflexivity|]. split; apply starts_not; assumption.
Qed.
Section ResolveFacts.
  Variables (urlparse : text -> outcome parts) (urlunparse : parts -> text).
  Lemma resolved_iff root link u : resolved urlparse urlunparse root link u <-> abs_link urlparse urlunparse root link = Ret u.
  Proof.
    unfold abs_link. split.
    - intro H. inversion H as [p Hp Hn|p t Hp Hn Ht|p steps rest dir path Hp Hn Ht Es Hd Hu Hb]; subst; rewrite Hp; cbn [bind].
      + destruct (u_netloc p); [contradiction|reflexivity].
      + rewrite Hn, Ht. reflexivity.
      + rewrite Hn, (proj1 (starts_not [SLASH] _) Ht). rewrite Es, (follow_dots_eq _ _ Hd) by lia. cbn [bind fst snd]. do 2 f_equal.
        apply dir_up_iff in Hu. fold (ups steps) in Hu. rewrite <- iter_head in Hu. rewrite Hu. f_equal. apply below_iff. exact Hb.
    - destruct (urlparse link) as [p|e|] eqn:Hp; [|discriminate|discriminate]. cbn [bind]. destruct (u_netloc p) as [|c n] eqn:En.
      + destruct (startswith [SLASH] (u_path p)) eqn:Es.
        * intro E. injection E as <-. apply startswith_iff in Es as [t Et]. eapply resolved_rooted; eauto.
        * destruct (dots_parts _ (u_path p) (le_n _)) as (steps & rest & Ep & Hd). rewrite Ep, (follow_dots_eq _ _ Hd) by lia. cbn [bind fst snd]. intro E. injection E as <-.
          eapply resolved_relative; [exact Hp|exact En|apply starts_not; exact Es|exact Ep|exact Hd|apply dir_up_iff; fold (ups steps); reflexivity|].
          rewrite <- iter_head. apply below_iff. reflexivity.
      + intro E. injection E as <-. eapply resolved_absolute; [exact Hp|congruence].
  Qed.
  Lemma abs_link_parse root link : (exists u, abs_link urlparse urlunparse root link = Ret u /\ exists p, urlparse link = Ret p) \/
    (exists e, abs_link urlparse urlunparse root link = Raise e /\ urlparse link = Raise e) \/ urlparse link = Diverge.
  Proof.
    unfold abs_link. destruct (urlparse link) as [p|e|]; [left|right; left; exists e; split; reflexivity|right; right; reflexivity]. cbn [bind]. destruct (u_netloc p); [|eauto]. destruct (startswith _ _); [eauto|].
    destruct (dots_parts _ (u_path p) (le_n _)) as (steps & rest & Ep & Hd). rewrite Ep, (follow_dots_eq _ _ Hd) by lia. cbn [bind]. eauto.
  Qed.
End ResolveFacts.
(** one absolute link for each, in order, made from the base and that link alone *)
Theorem C81_made_absolute : forall urlparse urlunparse links base urls,
  get_abs_links urlparse urlunparse (links, base) = Ret urls <-> exists root, urlparse base = Ret root /\ Forall2 (resolved urlparse urlunparse root) links urls.
Proof.
  intros up uu links base urls. unfold get_abs_links. cbn [fst snd]. destruct (up base) as [root|e|]; cbn [bind]; [|split; [discriminate|intros (r & E & _); discriminate]..].
  assert (G : forall urls, abs_links up uu root links = Ret urls <-> Forall2 (resolved up uu root) links urls).
  { clear urls. induction links as [|l t IH]; intro urls; cbn [abs_links].
    - split; [intro E; injection E as <-; constructor|intro H; inversion H; reflexivity].
    - split.
      + destruct (abs_link up uu root l) as [u|e|] eqn:E1; [|discriminate|discriminate]. cbn [bind]. destruct (abs_links up uu root t) as [us|e|] eqn:E2; [|discriminate|discriminate]. cbn [bind].
        intro E. injection E as <-. constructor; [apply resolved_iff; exact E1|apply IH; reflexivity].
      + intro H. inversion H as [|? u ? us H1 H2]; subst. apply resolved_iff in H1. rewrite H1. cbn [bind]. apply IH in H2. rewrite H2. reflexivity. }
  rewrite G. split; [intro H; exists root; auto|]. intros (r & E & H). injection E as <-. exact H.
Qed.
(** it always ends, and fails exactly when the base or a link cannot be parsed - then no link of the page is found *)
Theorem C81_fails : forall urlparse urlunparse links base, (forall t, urlparse t <> Diverge) ->
  (exists urls, get_abs_links urlparse urlunparse (links, base) = Ret urls /\ Forall (fun l => exists p, urlparse l = Ret p) (base :: links)) \/
  (exists e l, get_abs_links urlparse urlunparse (links, base) = Raise e /\ In l (base :: links) /\ urlparse l = Raise e).
Proof.
  intros up uu links base Hd. unfold get_abs_links. cbn [fst snd]. destruct (up base) as [root|e|] eqn:Eb; cbn [bind]; [|right; exists e, base; split; [reflexivity|split; [left; reflexivity|exact Eb]]|destruct (Hd base Eb)].
  assert (G : (exists urls, abs_links up uu root links = Ret urls /\ Forall (fun l => exists p, up l = Ret p) links) \/ (exists e l, abs_links up uu root links = Raise e /\ In l links /\ up l = Raise e)).
  { induction links as [|l t IH]; cbn [abs_links]; [left; eauto|]. destruct (abs_link_parse up uu root l) as [(u & E1 & Hp)|[(e & E1 & Hp)|E]]; [| |destruct (Hd l E)]; rewrite E1; cbn [bind].
    - destruct IH as [(us & E2 & Hf)|(e & l' & E2 & Hin & Hl)]; rewrite E2; cbn [bind]; [left; exists (u :: us); split; [reflexivity|constructor; assumption]|].
      right. exists e, l'. split; [reflexivity|]. split; [right; exact Hin|exact Hl].
    - right. exists e, l. split; [reflexivity|]. split; [left; reflexivity|exact Hp]. }
  destruct G as [(urls & E & Hf)|(e & l & E & Hin & Hl)]; [left; exists urls; split; [exact E|constructor; [eauto|exact Hf]]|right; exists e, l; split; [exact E|split; [right; exact Hin|exact Hl]]].
Qed.
(** on a usual path /d1/.../dm/file, "../" drops a directory and never leaves the root *)
Definition dirs_path (ds : list text) : text := concat (map (fun d => B "/" ++ d) ds).
Theorem C81_relative_path : forall urlparse urlunparse root link p ds file steps rest,
  urlparse link = Ret p -> u_netloc p = [] -> u_path p = dots steps ++ rest -> no_dots rest -> (forall t, rest <> B "/" ++ t) ->
  u_path root = dirs_path ds ++ B "/" ++ file -> Forall (fun d => d <> [] /\ ~ In 47%N d) ds -> ~ In 47%N file ->
  abs_link urlparse urlunparse root link =
    Ret (urlunparse (mkparts (u_scheme root) (u_netloc root)
           (dirs_path (firstn (List.length ds - List.length (filter (fun up => up) steps)) ds) ++ B "/" ++ rest) (u_params p) (u_query p))).
Proof.
  intros up uu root link p ds file steps rest Hp Hn Es Hd Hr Er Hds Hfile. apply resolved_iff.
  assert (T : forall t, u_path p <> B "/" ++ t) by (intros t E; rewrite Es in E; destruct steps as [|[|] steps]; [exact (Hr t E)|discriminate|discriminate]).
  (* the directory itself *)
  assert (L : forall ds d, d <> [] -> ~ In 47%N d -> exists x c, dirs_path (ds ++ [d]) = x ++ [c] /\ c <> 47%N).
  { intros l d Hd1 Hd2. destruct (exists_last Hd1) as (x & c & ->). exists (dirs_path l ++ B "/" ++ x), c. split; [|intro E; subst c; apply Hd2, in_or_app; right; left; reflexivity].
    unfold dirs_path. rewrite map_app, concat_app. cbn [map concat]. rewrite app_nil_r, <- !app_assoc. reflexivity. }
  assert (S1 : forall c, In c (B "/") -> c = 47%N) by (intros c [<-|[]]; reflexivity).
  assert (S2 : B "/" <> []) by discriminate.
  assert (D : forall l f, Forall (fun d => d <> [] /\ ~ In 47%N d) l -> ~ In 47%N f -> path_head (dirs_path l ++ B "/" ++ f) = match l with [] => B "/" | _ => dirs_path l end).
  { intros l f Hl Hf. apply path_head_eq. destruct l as [|d l]; [apply (dir_top (B "/") f S2 S1 Hf)|]. set (a := d :: l) in *. assert (Ha : a <> []) by discriminate. clearbody a.
    destruct (exists_last Ha) as (a' & d' & ->). apply Forall_app in Hl as [_ Hl]. inversion Hl as [|? ? [H1 H2] _]; subst. destruct (L a' d' H1 H2) as (x & c & E & Hc).
    rewrite E. replace (match a' ++ [d'] with [] => B "/" | _ :: _ => x ++ [c] end) with (x ++ [c]) by (destruct a'; reflexivity). apply dir_above; assumption. }
  (* k directories up *)
  assert (U : forall k l, Forall (fun d => d <> [] /\ ~ In 47%N d) l ->
    Nat.iter k path_head (match l with [] => B "/" | _ => dirs_path l end) = match firstn (List.length l - k) l with [] => B "/" | _ => dirs_path (firstn (List.length l - k) l) end).
  { induction k as [|k IH]; intros l Hl; [rewrite Nat.sub_0_r, firstn_all; reflexivity|]. rewrite <- iter_head. destruct l as [|d l].
    - pose proof (D [] [] (Forall_nil _) (fun x => x)) as X. cbn [dirs_path map concat app] in X. rewrite app_nil_r in X. rewrite X. exact (IH [] (Forall_nil _)).
    - set (a := d :: l) in *. assert (Ha : a <> []) by discriminate. clearbody a. destruct (exists_last Ha) as (a' & d' & ->). apply Forall_app in Hl as [Hl1 Hl2]. inversion Hl2 as [|? ? [H1 H2] _]; subst.
      assert (X : path_head (dirs_path (a' ++ [d'])) = match a' with [] => B "/" | _ => dirs_path a' end).
      { transitivity (path_head (dirs_path a' ++ B "/" ++ d')); [|apply D; assumption]. f_equal.
        unfold dirs_path. rewrite map_app, concat_app. cbn [map concat]. rewrite app_nil_r. reflexivity. }
      rewrite X. clear X.
      etransitivity; [exact (IH a' Hl1)|]. rewrite app_length. cbn [List.length]. replace (List.length a' + 1 - S k) with (List.length a' - k) by lia.
      rewrite firstn_app. replace (List.length a' - k - List.length a') with 0 by lia. rewrite firstn_O, app_nil_r. reflexivity. }
  set (k := List.length (filter (fun up => up) steps)) in *. eapply resolved_relative; [exact Hp|exact Hn|exact T|exact Es|exact Hd|apply dir_up_iff; reflexivity|]. fold k.
  apply below_iff. rewrite <- iter_head, Er, (D _ _ Hds Hfile), (U _ _ Hds). apply below_iff.
  assert (Hk : Forall (fun d => d <> [] /\ ~ In 47%N d) (firstn (List.length ds - k) ds)) by (apply Forall_forall; intros x Hx; rewrite Forall_forall in Hds; apply Hds; rewrite <- (firstn_skipn (List.length ds - k) ds); apply in_or_app; left; exact Hx).
  assert (G : forall l, Forall (fun d => d <> [] /\ ~ In 47%N d) l -> below (match l with [] => B "/" | _ => dirs_path l end) rest (dirs_path l ++ B "/" ++ rest)).
  { clear Hk. intros l Hk. destruct l as [|d l]; [apply (below_slash [] rest Hr)|]. set (a := d :: l) in *. assert (Ha : a <> []) by discriminate. clearbody a.
    destruct (exists_last Ha) as (a' & d' & ->). apply Forall_app in Hk as [_ Hl2]. inversion Hl2 as [|? ? [H1 H2] _]; subst. destruct (L a' d' H1 H2) as (x & c & E & Hc).
    rewrite E. apply below_dir; assumption. }
  exact (G _ Hk).
Qed.
(** ** Concrete cases *)
Definition cut_archive : bytes := Eval vm_compute in B "WARC/1.0" ++ CRLF ++ B "WARC-Type: response" ++ CRLF ++ B "Content-Length: 9" ++ CRLF ++ CRLF ++ B "abc".
Example C80_cases :
  (exists text, file_holds (fun b => b) (mkin (B "a.warc") (concat (rd_lines valid_sample) ++ CRLF)) text /\ valid_text text) /\
  warclinks (fun b => b) [Some (mkin (B "a.warc") (concat (rd_lines valid_sample) ++ CRLF)); None; Some (mkin (B "b.warc") cut_archive)] = (Ret (-2)%Z, []).
Proof.
  split; [|vm_compute; reflexivity]. exists (concat (rd_lines valid_sample) ++ CRLF). split; [|exact (proj1 C48_valid_case)]. left.
  assert (N1 : endswith (B ".gz") (B "a.warc") = false) by reflexivity.
  assert (N2 : startswith [31; 139]%N (concat (rd_lines valid_sample) ++ CRLF) = false) by (vm_compute; reflexivity).
  split; [|split; [|reflexivity]]; intros t E; cbn [in_name in_data] in E.
  - assert (X : endswith (B ".gz") (B "a.warc") = true) by (apply endswith_iff; eauto). congruence.
  - revert t E. apply starts_not. exact N2.
Qed.
(** a parser of URLs good enough for the cases: "//h" in front of a path gives the host "h" *)
Definition toy_parse (t : text) : outcome parts :=
  match t with
  | 91%N :: _ => Raise EValueError
  | 47%N :: 47%N :: h :: p => Ret (mkparts (B "http") [h] p [] [])
  | p => Ret (mkparts [] [] p [] [])
  end.
Definition toy_unparse (p : parts) : text := B "//" ++ u_netloc p ++ u_path p ++ (match u_query p with [] => [] | q => B "?" ++ q end).
Example C81_cases :
  let page := [(B "base", [(B "href", Some (B "//h/a/b/c"))]); (B "A", [(B "href", Some (B "no"))]); (B "a", [(B "class", Some (B "x")); (B "href", Some (B "../d")); (B "href", None)]);
               (B "img", [(B "src", Some (B "/e")); (B "lowsrc", Some (B "./../../../../f"))]); (B "meta", [(B "content", Some (B "5;URL= //k/g "))]);
               (B "meta", [(B "content", Some (B "5; url=//k/lost"))])] in
  handle_all (B "//x/") page = ([B "../d"; B "/e"; B "./../../../../f"; B "//k/g"], B "//h/a/b/c") /\
  page_links toy_parse toy_unparse (B "//x/") page = Ret [B "//h/a/d"; B "//h/e"; B "//h/f"; B "//k/g"] /\
  page_links toy_parse toy_unparse (B "//x/") (page ++ [(B "a", [(B "href", Some (B "[bad"))])]) = Raise EValueError /\
  (toy_parse (B "../d") = Ret (mkparts [] [] (dots [true] ++ B "d") [] []) /\ no_dots (B "d") /\ B "/a/b/c" = dirs_path [B "a"; B "b"] ++ B "/" ++ B "c").
Proof. repeat split; try (vm_compute; reflexivity); intros t E; discriminate. Qed.
