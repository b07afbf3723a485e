(** C73: warcunpack_ia: the files pages are written to; the script as a whole. *)
From Verif Require Import PyBytesFacts.
From Verif Require Export Unpack PropsTextMode.
From Coq Require Import String List Lia ZArith FinFun.
Open Scope list_scope.

(** ** Specification *)
Definition no_slash (c : text) : Prop := ~ In SLASH c.
(** an ordinary name of a file or directory *)
Definition plain (c : text) : Prop := c <> [] /\ c <> [DOT] /\ c <> DOTS /\ no_slash c.
(** an absolute path given by its components *)
Definition abs_path (ds : list text) : text := SLASH :: join [SLASH] ds.
(** following directory names from [here]: . stays, .. goes up (the root is its own parent) *)
Fixpoint walk (here : list text) (dirs : list text) : list text :=
  match dirs with
  | [] => here
  | c :: t => walk (if text_eqb c [DOT] then here else if text_eqb c DOTS then removelast here else here ++ [c]) t
  end.
(** never above the starting point *)
Fixpoint stays (depth : nat) (dirs : list text) : Prop :=
  match dirs with
  | [] => True
  | c :: t => if text_eqb c [DOT] then stays depth t
              else if text_eqb c DOTS then match depth with O => False | S d => stays d t end
              else stays (S depth) t
  end.

(** ** Texts and paths *)
Lemma text_eqb_eq a b : text_eqb a b = true <-> a = b. Proof. apply bytes_eqb_eq. Qed.
Lemma text_eqb_neq a b : a <> b -> text_eqb a b = false.
Proof. intro H. destruct (text_eqb a b) eqn:E; [apply text_eqb_eq in E; contradiction|reflexivity]. Qed.
Lemma split_nonempty s : split_slash s <> [].
Proof. destruct s as [|c t]; cbn; [discriminate|]. destruct (N.eqb c SLASH); [discriminate|]. destruct (split_slash t); discriminate. Qed.
Lemma split_no_slash s : Forall no_slash (split_slash s).
Proof.
  induction s as [|c t IH]; cbn [split_slash]; [constructor; [intros []|constructor]|].
  destruct (N.eqb_spec c SLASH); [constructor; [intros []|exact IH]|]. destruct (split_slash t) as [|p ps]; inversion IH; subst.
  - constructor; [intros [->|[]]; congruence|constructor].
  - constructor; [intros [->|X]; [congruence|contradiction]|assumption].
Qed.
Lemma split_app a b : split_slash (a ++ SLASH :: b) = split_slash a ++ split_slash b.
Proof.
  induction a as [|c t IH]; [reflexivity|]. cbn [app split_slash]. destruct (N.eqb c SLASH); [rewrite IH; reflexivity|]. rewrite IH.
  destruct (split_slash t) as [|p ps] eqn:E; [destruct (split_nonempty t E)|reflexivity].
Qed.
Lemma split_plain c : no_slash c -> split_slash c = [c].
Proof.
  induction c as [|x t IH]; intro H; [reflexivity|]. cbn [split_slash]. destruct (N.eqb_spec x SLASH); [destruct H; left; assumption|].
  rewrite IH; [reflexivity|intro X; apply H; right; exact X].
Qed.
Lemma split_join cs : cs <> [] -> Forall no_slash cs -> split_slash (join [SLASH] cs) = cs.
Proof.
  induction cs as [|c cs IH]; intros Hn H; [congruence|]. inversion H; subst. destruct cs as [|d cs]; [cbn [join]; apply split_plain; assumption|].
  change (join [SLASH] (c :: d :: cs)) with (c ++ SLASH :: join [SLASH] (d :: cs)). rewrite split_app, split_plain, IH by (assumption || discriminate). reflexivity.
Qed.
Lemma join_snoc cs d : cs <> [] -> join [SLASH] (cs ++ [d]) = join [SLASH] cs ++ SLASH :: d.
Proof.
  induction cs as [|c cs IH]; intro Hn; [congruence|]. destruct cs as [|e cs]; [reflexivity|].
  change (join [SLASH] ((c :: e :: cs) ++ [d])) with (c ++ SLASH :: join [SLASH] ((e :: cs) ++ [d])). rewrite IH by discriminate.
  change (join [SLASH] (c :: e :: cs)) with (c ++ SLASH :: join [SLASH] (e :: cs)). rewrite <- app_assoc. reflexivity.
Qed.
Definition names (cs : list text) : Prop := Forall (fun c => c <> [] /\ no_slash c) cs.
Lemma plain_names cs : Forall plain cs -> names cs.
Proof. intro H. eapply Forall_impl; [|exact H]. intros c (H1 & _ & _ & H4). auto. Qed.
Lemma startswith_one p : is_abs p = true <-> exists t, p = SLASH :: t.
Proof. unfold is_abs. destruct p as [|c t]; cbn [startswith]; [split; [discriminate|intros [t H]; discriminate]|]. rewrite andb_true_r, N.eqb_eq. split; [intros <-; eauto|intros [u H]; congruence]. Qed.
Lemma name_not_abs d : no_slash d -> is_abs d = false.
Proof. intro H. destruct (is_abs d) eqn:E; [|reflexivity]. apply startswith_one in E as [t ->]. destruct H. left. reflexivity. Qed.
Lemma ends_slash_snoc t c : ends_slash (t ++ [c]) = N.eqb SLASH c.
Proof. unfold ends_slash, endswith. rewrite rev_app_distr. cbn [rev app startswith]. apply andb_true_r. Qed.
Lemma abs_path_ends ds : ds <> [] -> names ds -> ends_slash (abs_path ds) = false.
Proof.
  intros Hn H. destruct (exists_last Hn) as (u & d & ->). apply Forall_app in H as [_ H]. apply Forall_inv in H as [Hd1 Hd2].
  destruct (exists_last Hd1) as (v & c & ->). unfold abs_path.
  assert (E : exists w, SLASH :: join [SLASH] (u ++ [v ++ [c]]) = w ++ [c]).
  { destruct u as [|x u]; [exists (SLASH :: v); reflexivity|]. rewrite join_snoc by discriminate. exists (SLASH :: join [SLASH] (x :: u) ++ SLASH :: v). cbn [app]. rewrite <- app_assoc. reflexivity. }
  destruct E as [w E]. transitivity (ends_slash (w ++ [c])); [f_equal; exact E|]. rewrite ends_slash_snoc. destruct (N.eqb_spec SLASH c) as [<-|]; [|reflexivity]. destruct Hd2. apply in_or_app. right. left. reflexivity.
Qed.
Lemma join_abs ds d : names ds -> d <> [] -> no_slash d -> join_path (abs_path ds) d = abs_path (ds ++ [d]).
Proof.
  intros H Hd Hs. unfold join_path. rewrite name_not_abs by assumption. unfold abs_path at 1. destruct ds as [|x ds].
  - reflexivity.
  - rewrite abs_path_ends by (assumption || discriminate). unfold abs_path. rewrite join_snoc by discriminate. reflexivity.
Qed.
Lemma join_paths_abs dirs : forall ds, names ds -> names dirs -> join_paths (abs_path ds) dirs = abs_path (ds ++ dirs).
Proof.
  unfold join_paths. induction dirs as [|d dirs IH]; intros ds H1 H2; cbn [fold_left]; [rewrite app_nil_r; reflexivity|]. inversion H2 as [|? ? [Hd1 Hd2] H2']; subst.
  rewrite join_abs by assumption. rewrite IH; [rewrite <- app_assoc; reflexivity| |assumption]. apply Forall_app. split; [assumption|constructor; [auto|constructor]].
Qed.
Lemma abs_initial cs : names cs -> initial_slashes (abs_path cs) = 1.
Proof.
  intro H. unfold initial_slashes, abs_path. cbn [is_abs startswith]. rewrite N.eqb_refl. cbn [andb].
  destruct cs as [|c cs]; [reflexivity|]. inversion H as [|? ? [Hc1 Hc2] _]; subst. destruct c as [|x c]; [congruence|].
  assert (X : (SLASH =? x)%N = false) by (apply N.eqb_neq; intros <-; apply Hc2; left; reflexivity).
  destruct cs; cbn [join app]; rewrite X; reflexivity.
Qed.
Definition step_up (acc : list text) (cs : list text) : list text := fold_left (norm_step true) cs acc.
Lemma walk_step dirs : forall ds, Forall plain ds -> names dirs ->
  rev (step_up (rev ds) dirs) = walk ds dirs /\ Forall plain (walk ds dirs).
Proof.
  unfold step_up. induction dirs as [|c dirs IH]; intros ds Hd Hc; cbn [fold_left walk]; [rewrite rev_involutive; auto|].
  inversion Hc as [|? ? [Hc1 Hc2] Hc']; subst. unfold norm_step at 2. rewrite (text_eqb_neq c []) by assumption. cbn [orb].
  destruct (text_eqb c [DOT]) eqn:E1; [apply IH; assumption|]. destruct (text_eqb c DOTS) eqn:E2; cbn [negb].
  - assert (R : match rev ds with [] => [] | t :: r => if text_eqb t DOTS then c :: rev ds else r end = rev (removelast ds)).
    { destruct (rev ds) as [|t r] eqn:Er.
      - assert (ds = []) as -> by (rewrite <- (rev_involutive ds), Er; reflexivity). reflexivity.
      - assert (Eds : ds = rev r ++ [t]) by (rewrite <- (rev_involutive ds), Er; reflexivity). rewrite Eds in Hd |- *. apply Forall_app in Hd as [_ Hd].
        apply Forall_inv in Hd as (_ & _ & Ht & _). rewrite text_eqb_neq by assumption. rewrite removelast_last, rev_involutive. reflexivity. }
    rewrite R. apply IH; [|assumption]. destruct ds as [|d ds] using rev_ind; [constructor|]. rewrite removelast_last. apply Forall_app in Hd as [Hd _]. exact Hd.
  - change (c :: rev ds) with (rev [c] ++ rev ds). rewrite <- rev_app_distr. apply IH; [|assumption]. apply Forall_app. split; [assumption|]. constructor; [|constructor].
    repeat split; try assumption; intros ->; vm_compute in *; discriminate.
Qed.
Lemma normpath_abs ds dirs : Forall plain ds -> names dirs -> normpath (abs_path (ds ++ dirs)) = abs_path (walk ds dirs).
Proof.
  intros Hd Hc. assert (Hn : names (ds ++ dirs)) by (apply Forall_app; split; [apply plain_names|]; assumption).
  unfold normpath. unfold abs_path at 1. rewrite abs_initial by assumption. change (Nat.ltb 0 1) with true.
  assert (E : fold_left (norm_step true) (split_slash (abs_path (ds ++ dirs))) [] = step_up [] (ds ++ dirs)).
  { unfold abs_path. cbn [split_slash]. rewrite N.eqb_refl. cbn [fold_left]. change (norm_step true [] []) with (@nil text).
    destruct (ds ++ dirs) as [|x cs] eqn:Ec; [reflexivity|]. rewrite split_join; [reflexivity|discriminate|]. eapply Forall_impl; [|exact Hn]. intros ? []; assumption. }
  cbn zeta. rewrite E.
  assert (E2 : rev (step_up [] (ds ++ dirs)) = walk ds dirs).
  { destruct (walk_step ds [] ltac:(constructor) (plain_names _ Hd)) as [Ew _]. destruct (walk_step dirs ds Hd Hc) as [Ew2 _].
    unfold step_up in *. rewrite fold_left_app. cbn [rev] in Ew. rewrite <- Ew2. f_equal. f_equal. rewrite <- (rev_involutive (fold_left (norm_step true) ds [])), Ew. f_equal.
    clear - Hd. change (walk [] ds = [] ++ ds). generalize (@nil text). induction ds as [|c ds IH]; intro h; [rewrite app_nil_r; reflexivity|]. inversion Hd as [|? ? (H1 & H2 & H3 & H4) Hd']; subst.
    cbn [walk]. rewrite !text_eqb_neq by assumption. rewrite IH by assumption. rewrite <- app_assoc. reflexivity. }
  rewrite E2. reflexivity.
Qed.
Lemma names_filter l : Forall no_slash l -> names (filter (fun d => negb (text_eqb d [])) l).
Proof.
  induction l as [|x l IH]; intro H; [constructor|]. inversion H; subst. cbn [filter]. destruct (text_eqb x []) eqn:E; cbn [negb]; [apply IH; assumption|]. constructor; [|apply IH; assumption].
  split; [intros ->; discriminate|assumption].
Qed.
Lemma Forall_removelast {A} (P : A -> Prop) l : Forall P l -> Forall P (removelast l).
Proof. induction 1 as [|x l Hx Hl IH]; [constructor|]. cbn. destruct l; [constructor|constructor; assumption]. Qed.
Lemma url_dirs_names alnum url : names (url_dirs alnum url).
Proof. unfold url_dirs. apply names_filter, Forall_removelast, split_no_slash. Qed.
Lemma url_file_no_slash alnum url : no_slash (url_file alnum url).
Proof.
  unfold url_file. pose proof (split_no_slash (clean_url alnum url)) as H. pose proof (split_nonempty (clean_url alnum url)) as Hn.
  destruct (exists_last Hn) as (u & x & E). rewrite E in *. rewrite last_last. apply Forall_app in H as [_ H]. exact (Forall_inv H).
Qed.
Lemma stays_walk dirs : forall ds pre, names dirs -> stays (List.length pre) dirs -> walk (ds ++ pre) dirs = ds ++ walk pre dirs.
Proof.
  induction dirs as [|c dirs IH]; intros ds pre Hn H; [reflexivity|]. cbn [walk stays] in *. inversion Hn; subst. destruct (text_eqb c [DOT]); [apply IH; assumption|].
  destruct (text_eqb c DOTS).
  - destruct pre as [|x pre] using rev_ind; [destruct H|]. clear IHpre. rewrite app_length in H. cbn [List.length plus] in H. rewrite Nat.add_1_r in H.
    rewrite app_assoc, !removelast_last. apply IH; assumption.
  - rewrite <- app_assoc. apply IH; [assumption|]. rewrite app_length. cbn [List.length]. rewrite Nat.add_1_r. exact H.
Qed.

(** ** C73: the directory *)
(** for an output directory given by ordinary names: the walk along the URL, and the first 200 characters of that *)
Theorem C73_directory : forall alnum (ds : list text) (url : text), Forall plain ds ->
  out_directory alnum (abs_path ds) url = firstn 200 (abs_path (walk ds (url_dirs alnum url))).
Proof.
  intros alnum ds url H. unfold out_directory. rewrite join_paths_abs; [|apply plain_names; exact H|apply url_dirs_names].
  rewrite normpath_abs; [reflexivity|exact H|apply url_dirs_names].
Qed.
Theorem C73_directory_below : forall alnum (ds : list text) (url : text), Forall plain ds -> stays 0 (url_dirs alnum url) ->
  List.length (abs_path (walk ds (url_dirs alnum url))) <= 200 ->
  out_directory alnum (abs_path ds) url = abs_path (ds ++ walk [] (url_dirs alnum url)) /\ Forall plain (walk [] (url_dirs alnum url)).
Proof.
  intros alnum ds url H Hs Hl. rewrite C73_directory by exact H. rewrite firstn_all2 by exact Hl. split.
  - rewrite <- (stays_walk _ ds [] (url_dirs_names _ _) Hs), app_nil_r. reflexivity.
  - apply (walk_step _ [] ltac:(constructor) (url_dirs_names _ _)).
Qed.
(** but a URL can lead out of it, as far up as one likes *)
Definition climbing_url (n : nat) : text := B "http://h" ++ concat (repeat (B "/..") n) ++ B "/x".
Lemma split_climb n : forall a, split_slash (a ++ concat (repeat (B "/..") n)) = split_slash a ++ repeat DOTS n.
Proof.
  induction n as [|n IH]; intro a; cbn [repeat concat]; [rewrite !app_nil_r; reflexivity|].
  change (B "/.." ++ concat (repeat (B "/..") n)) with (SLASH :: (DOTS ++ concat (repeat (B "/..") n))). rewrite split_app, IH. reflexivity.
Qed.
Lemma keep_kept alnum c : existsb (N.eqb c) (B "_-/.") = true -> keep alnum c = c.
Proof. intro H. unfold keep. rewrite H, orb_true_r. reflexivity. Qed.
Lemma keep_dots alnum n : map (keep alnum) (concat (repeat (B "/..") n)) = concat (repeat (B "/..") n).
Proof.
  induction n as [|n IH]; [reflexivity|]. cbn [repeat concat]. rewrite map_app, IH. f_equal.
  change (map (keep alnum) (B "/..")) with [keep alnum 47%N; keep alnum 46%N; keep alnum 46%N]. rewrite !keep_kept by reflexivity. reflexivity.
Qed.
Lemma keep_slash alnum : keep alnum SLASH = SLASH. Proof. apply keep_kept. reflexivity. Qed.
Lemma filter_dots n : filter (fun d => negb (text_eqb d [])) (repeat DOTS n) = repeat DOTS n.
Proof. induction n as [|n IH]; [reflexivity|]. cbn [repeat filter]. change (text_eqb DOTS []) with false. cbn [negb]. f_equal. exact IH. Qed.
Lemma keep_no_slash alnum l : no_slash l -> no_slash (map (keep alnum) l).
Proof.
  intros H X. apply in_map_iff in X as (c & E & Hc). unfold keep in E. destruct (_ || _); [subst c; contradiction|discriminate].
Qed.
Definition T_http : text := [104; 116; 116; 112]%N.
Lemma climbing_clean alnum n : clean_url alnum (climbing_url n) =
  ((map (keep alnum) T_http ++ SLASH :: map (keep alnum) [104%N]) ++ concat (repeat (B "/..") n)) ++ SLASH :: map (keep alnum) [120%N].
Proof.
  unfold clean_url, climbing_url. transitivity (map (keep alnum) ((T_http ++ SLASH :: [104%N]) ++ concat (repeat (B "/..") n) ++ SLASH :: [120%N])); [reflexivity|].
  rewrite !map_app, keep_dots. cbn [map]. rewrite keep_slash. rewrite <- !app_assoc. reflexivity.
Qed.
Lemma climbing_dirs alnum n : exists a b, plain a /\ plain b /\ url_dirs alnum (climbing_url n) = [a; b] ++ repeat DOTS n.
Proof.
  exists (map (keep alnum) T_http), (map (keep alnum) [104%N]). 
  assert (H1 : no_slash (map (keep alnum) T_http)) by (apply keep_no_slash; unfold no_slash, SLASH, T_http; cbn [In]; intuition discriminate).
  assert (H2 : no_slash (map (keep alnum) [104%N])) by (apply keep_no_slash; unfold no_slash, SLASH; cbn [In]; intuition discriminate).
  assert (H3 : no_slash (map (keep alnum) [120%N])) by (apply keep_no_slash; unfold no_slash, SLASH; cbn [In]; intuition discriminate).
  split; [|split].
  - split; [discriminate|]. split; [discriminate|]. split; [discriminate|exact H1].
  - split; [discriminate|]. split; [|split; [discriminate|exact H2]]. cbn [map]. unfold keep. destruct (_ || _); discriminate.
  - unfold url_dirs. rewrite climbing_clean, split_app, split_climb, split_app, (split_plain _ H1), (split_plain _ H2), (split_plain _ H3), removelast_last, filter_app, filter_dots. reflexivity.
Qed.
Lemma walk_up n : forall ds, walk ds (repeat DOTS n) = firstn (List.length ds - n) ds.
Proof.
  induction n as [|n IH]; intro ds; cbn [repeat walk]; [rewrite Nat.sub_0_r, firstn_all; reflexivity|].
  change (text_eqb DOTS [DOT]) with false. change (text_eqb DOTS DOTS) with true. rewrite IH.
  destruct ds as [|d ds] using rev_ind; [reflexivity|]. rewrite removelast_last, app_length. cbn [List.length]. replace (List.length ds + 1 - S n) with (List.length ds - n) by lia.
  rewrite firstn_app. replace (List.length ds - n - List.length ds) with 0 by lia. cbn [firstn]. rewrite app_nil_r. reflexivity.
Qed.
Theorem C73_directory_can_be_anywhere_above : forall alnum (ds : list text) (n : nat), Forall plain ds -> List.length (abs_path ds) <= 200 -> n <= List.length ds ->
  out_directory alnum (abs_path ds) (climbing_url (n + 2)) = abs_path (firstn (List.length ds - n) ds).
Proof.
  intros alnum ds n H Hl Hn. rewrite C73_directory by exact H. destruct (climbing_dirs alnum (n + 2)) as (a & b & Ha & Hb & ->).
  assert (E : walk ds ([a; b] ++ repeat DOTS (n + 2)) = firstn (List.length ds - n) ds).
  { cbn [app walk]. destruct Ha as (_ & Ha1 & Ha2 & _), Hb as (_ & Hb1 & Hb2 & _). rewrite !text_eqb_neq by assumption. rewrite walk_up, !app_length. cbn [List.length].
    replace (List.length ds + 1 + 1 - (n + 2)) with (List.length ds - n) by lia. rewrite <- app_assoc, firstn_app. replace (List.length ds - n - List.length ds) with 0 by lia. cbn [firstn]. apply app_nil_r. }
  rewrite E. apply firstn_all2. etransitivity; [|exact Hl]. unfold abs_path. cbn [List.length].
  assert (G : forall (l : list bytes) k, List.length (join [SLASH] (firstn k l)) <= List.length (join [SLASH] l)).
  { clear. induction l as [|x l IH]; intros [|k]; cbn [firstn]; [reflexivity|reflexivity|cbn; lia|]. destruct l as [|y l]; [destruct k; reflexivity|].
    specialize (IH k). change (join [SLASH] (x :: y :: l)) with (x ++ SLASH :: join [SLASH] (y :: l)). destruct k as [|k]; [cbn [firstn join]; rewrite app_length; lia|].
    change (join [SLASH] (x :: firstn (S k) (y :: l))) with (x ++ SLASH :: join [SLASH] (firstn (S k) (y :: l))). rewrite !app_length. cbn [List.length]. lia. }
  specialize (G ds (List.length ds - n)). lia.
Qed.

(** ** C73: the file *)
(** paths mean the same before and after normalisation: no .. behind a symbolic link *)
Definition normal_names (realpath : text -> text) : Prop := forall p, realpath (normpath p) = realpath p.
Definition keeps_files (makedirs : files -> text -> outcome files) : Prop := forall fs d fs1, makedirs fs d = Ret fs1 -> incl fs fs1.

Lemma path_exists_in realpath fs p : path_exists realpath fs p = true <-> In (realpath p) fs.
Proof.
  unfold path_exists. rewrite existsb_exists. split; [intros (x & Hx & E); apply text_eqb_eq in E; rewrite E; exact Hx|intro H; exists (realpath p); split; [exact H|apply text_eqb_eq; reflexivity]].
Qed.
(** the names tried: the plain one, then the ones with a random identifier *)
Definition candidate (fresh_id : nat -> text) (directory name ext : text) (k : nat) : text :=
  join_path directory (short_name name ext ++ B "_R" ++ fresh_id k ++ ext).
Lemma unused_spec realpath fresh_id fs directory name ext : forall fuel k full coll r, 
  unused realpath fresh_id fuel k fs directory name ext full coll = r ->
  match r with
  | Ret (p, c, k') => ~ In (realpath p) fs /\ k <= k' /\
      ((k' = k /\ p = full /\ c = coll) \/ (k < k' /\ c = true /\ p = candidate fresh_id directory name ext (k' - 1) /\ In (realpath full) fs /\
         forall i, k <= i < k' - 1 -> In (realpath (candidate fresh_id directory name ext i)) fs))
  | Raise _ => False
  | Diverge => (fuel = 0 \/ In (realpath full) fs) /\ forall i, S i < fuel -> In (realpath (candidate fresh_id directory name ext (k + i))) fs
  end.
Proof.
  induction fuel as [|fuel IH]; intros k full coll r <-; cbn [unused].
  - split; [auto|lia].
  - destruct (path_exists realpath fs full) eqn:E.
    + apply path_exists_in in E. specialize (IH (S k) (candidate fresh_id directory name ext k) true _ eq_refl). unfold candidate at 1 in IH.
      destruct (unused realpath fresh_id fuel (S k) fs directory name ext _ true) as [[[p c] k']|e|]; [|contradiction|].
      * destruct IH as (H1 & H2 & H3). split; [exact H1|]. split; [lia|]. right. destruct H3 as [(-> & -> & ->)|(H4 & -> & -> & H5 & H6)].
        -- split; [lia|]. split; [reflexivity|]. replace (S k - 1) with k by lia. split; [reflexivity|]. split; [exact E|]. intros i Hi. lia.
        -- split; [lia|]. split; [reflexivity|]. split; [reflexivity|]. split; [exact E|]. intros i Hi. destruct (Nat.eq_dec i k) as [->|]; [exact H5|apply H6; lia].
      * destruct IH as [H1 H2]. split; [right; exact E|]. intros i Hi. destruct i as [|i].
        -- rewrite Nat.add_0_r. destruct H1 as [->|H1]; [lia|exact H1].
        -- replace (k + S i) with (S k + i) by lia. apply H2. lia.
    + split; [intro H; apply path_exists_in in H; congruence|]. split; [lia|]. left. auto.
Qed.

(** the directory, and the names, of a page *)
Theorem C73_name : forall alnum guess_extension realpath fresh_id makedirs fuel k fs output_dir url mime default_name p coll fs1 k1 name ext,
  name_ext alnum guess_extension url mime default_name = (name, ext) ->
  output_file alnum guess_extension realpath fresh_id makedirs fuel k fs output_dir url mime default_name = Ret (p, coll, fs1, k1) ->
  exists fname,
    p = realpath (normpath (join_path (out_directory alnum output_dir url) fname)) /\
    (coll = false -> fname = short_name name ext ++ ext) /\
    (coll = true -> exists i, k <= i < k1 /\ fname = short_name name ext ++ B "_R" ++ fresh_id i ++ ext) /\
    (List.length ext <= 45 -> List.length (short_name name ext ++ ext) <= 45).
Proof.
  intros alnum ge rp fi md fuel k fs od url mime dn p coll fs1 k1 name ext Hn H. unfold output_file in H. rewrite Hn in H.
  destruct (if path_exists rp fs (out_directory alnum od url) then Ret fs else md fs (out_directory alnum od url)) as [f1|e|]; [|discriminate|discriminate].
  pose proof (unused_spec rp fi f1 (out_directory alnum od url) name ext fuel k (join_path (out_directory alnum od url) (short_name name ext ++ ext)) false _ eq_refl) as U.
  destruct (unused rp fi fuel k f1 (out_directory alnum od url) name ext _ false) as [[[q c] k']|e|]; [|discriminate|discriminate]. injection H as <- <- <- <-.
  assert (L : List.length ext <= 45 -> List.length (short_name name ext ++ ext) <= 45).
  { intro Hl. rewrite app_length. unfold short_name, upto. destruct (Z.ltb_spec (45 - Z.of_nat (List.length ext)) 0); [lia|]. rewrite firstn_length. lia. }
  destruct U as (_ & _ & [(-> & -> & ->)|(H1 & -> & -> & _)]).
  - exists (short_name name ext ++ ext). split; [reflexivity|]. split; [reflexivity|]. split; [discriminate|exact L].
  - exists (short_name name ext ++ B "_R" ++ fi (k' - 1) ++ ext). split; [reflexivity|]. split; [discriminate|]. split; [|exact L]. intros _. exists (k' - 1). split; [lia|reflexivity].
Qed.
(** whenever the content type has an extension, that is the extension, whatever the URL says *)
Theorem C73_extension_from_content_type : forall alnum guess_extension realpath fresh_id makedirs fuel k fs output_dir url m e default_name p coll fs1 k1,
  m <> [] -> e <> [] -> guess_extension m = Some e ->
  output_file alnum guess_extension realpath fresh_id makedirs fuel k fs output_dir url (Some m) default_name = Ret (p, coll, fs1, k1) ->
  exists stem, p = realpath (normpath (join_path (out_directory alnum output_dir url) (stem ++ e))).
Proof.
  intros alnum ge rp fi md fuel k fs od url m e dn p coll fs1 k1 Hm He Hg H.
  destruct (name_ext alnum ge url (Some m) dn) as [name ext] eqn:En.
  destruct (C73_name _ _ _ _ _ _ _ _ _ _ _ _ _ _ _ _ _ _ En H) as (fname & -> & H1 & H2 & _).
  assert (ext = e) as ->.
  { destruct m as [|x m]; [congruence|]. destruct e as [|y e]; [congruence|]. unfold name_ext in En. rewrite Hg in En.
    destruct (url_file alnum url); [|destruct (splitext _)]; injection En as _ <-; reflexivity. }
  destruct coll.
  - destruct (H2 eq_refl) as (i & _ & ->). exists (short_name name e ++ B "_R" ++ fi i). rewrite <- !app_assoc. reflexivity.
  - rewrite (H1 eq_refl). exists (short_name name e). reflexivity.
Qed.
(** no file that exists is given out again *)
Theorem C73_new_file : forall alnum guess_extension realpath fresh_id makedirs fuel k fs output_dir url mime default_name p coll fs1 k1,
  normal_names realpath -> keeps_files makedirs ->
  output_file alnum guess_extension realpath fresh_id makedirs fuel k fs output_dir url mime default_name = Ret (p, coll, fs1, k1) ->
  ~ In p fs1 /\ incl fs fs1.
Proof.
  intros alnum ge rp fi md fuel k fs od url mime dn p coll fs1 k1 Hr Hm H. unfold output_file in H. destruct (name_ext alnum ge url mime dn) as [name ext].
  destruct (if path_exists rp fs (out_directory alnum od url) then Ret fs else md fs (out_directory alnum od url)) as [f1|e|] eqn:Em; [|discriminate|discriminate].
  pose proof (unused_spec rp fi f1 (out_directory alnum od url) name ext fuel k (join_path (out_directory alnum od url) (short_name name ext ++ ext)) false _ eq_refl) as U.
  destruct (unused rp fi fuel k f1 (out_directory alnum od url) name ext _ false) as [[[q c] k']|e|]; [|discriminate|discriminate]. injection H as <- <- <- <-.
  destruct U as (U & _). rewrite (Hr q). split; [exact U|].
  destruct (path_exists rp fs (out_directory alnum od url)); [injection Em as <-; apply incl_refl|exact (Hm _ _ _ Em)].
Qed.
(** so the pages of a run go to different files, none of which existed *)
Theorem C73_many_pages : forall alnum guess_extension realpath fresh_id makedirs fuel output_dir default_name pages k fs ps fs2,
  normal_names realpath -> keeps_files makedirs ->
  write_pages alnum guess_extension realpath fresh_id makedirs fuel k fs output_dir default_name pages = Ret (ps, fs2) ->
  List.length ps = List.length pages /\ NoDup ps /\ (forall p, In p ps -> ~ In p fs) /\ incl fs fs2 /\ incl ps fs2.
Proof.
  intros alnum ge rp fi md fuel od dn pages. induction pages as [|[url mime] pages IH]; intros k fs ps fs2 Hr Hm H; cbn [write_pages] in H.
  - injection H as <- <-. split; [reflexivity|]. split; [constructor|]. split; [intros ? []|]. split; [apply incl_refl|intros ? []].
  - destruct (output_file alnum ge rp fi md fuel k fs od url mime dn) as [[[[p c] f1] k1]|e|] eqn:E; [|discriminate|discriminate].
    destruct (write_pages alnum ge rp fi md fuel k1 (p :: f1) od dn pages) as [[qs f2]|e|] eqn:E2; [|discriminate|discriminate]. injection H as <- <-.
    destruct (C73_new_file _ _ _ _ _ _ _ _ _ _ _ _ _ _ _ _ Hr Hm E) as [N1 N2]. destruct (IH _ _ _ _ Hr Hm E2) as (L & D & F & I & J).
    split; [cbn; f_equal; exact L|]. split; [constructor; [|exact D]|].
    { intro X. apply (F _ X). left. reflexivity. }
    split; [|split].
    + intros q [<-|Hq]; [intro X; apply N1, N2, X|intro X; apply (F _ Hq); right; apply N2, X].
    + intros q Hq. apply I. right. apply N2, Hq.
    + intros q [<-|Hq]; [apply I; left; reflexivity|apply J, Hq].
Qed.
(** the search ends if the names with identifiers mean different files... *)
Theorem C73_search_ends : forall realpath fresh_id fs directory name ext k full coll fuel,
  (forall i j, realpath (candidate fresh_id directory name ext i) = realpath (candidate fresh_id directory name ext j) -> i = j) ->
  List.length fs + 2 <= fuel ->
  unused realpath fresh_id fuel k fs directory name ext full coll <> Diverge.
Proof.
  intros rp fi fs d name ext k full coll fuel Hi Hf H. pose proof (unused_spec rp fi fs d name ext fuel k full coll _ eq_refl) as U. rewrite H in U. destruct U as [_ U].
  set (l := map (fun i => rp (candidate fi d name ext (k + i))) (seq 0 (List.length fs + 1))).
  assert (Nl : NoDup l).
  { unfold l. apply FinFun.Injective_map_NoDup; [|apply seq_NoDup]. intros i j E. apply Hi in E. lia. }
  assert (Il : incl l fs). { intros x Hx. apply in_map_iff in Hx as (i & <- & Hx). apply in_seq in Hx. apply U. lia. }
  pose proof (NoDup_incl_length Nl Il) as L. unfold l in L. rewrite map_length, seq_length in L. lia.
Qed.
(** ... and not before: while all the names exist it goes on *)
Theorem C73_search_goes_on : forall realpath fresh_id fs directory name ext k full coll fuel,
  In (realpath full) fs -> (forall i, In (realpath (candidate fresh_id directory name ext i)) fs) ->
  unused realpath fresh_id fuel k fs directory name ext full coll = Diverge.
Proof.
  intros rp fi fs d name ext k full coll fuel H1 H2. pose proof (unused_spec rp fi fs d name ext fuel k full coll _ eq_refl) as U.
  destruct (unused rp fi fuel k fs d name ext full coll) as [[[p c] k']|e|]; [|contradiction|reflexivity].
  exfalso. destruct U as (N & _ & [(_ & -> & _)|(_ & _ & -> & _)]); apply N; [exact H1|apply H2].
Qed.

(** ** C73: below the output directory *)
(** the parent directories of what exists, exist *)
Definition tree (realpath : text -> text) (fs : files) : Prop :=
  forall cs c, Forall plain (cs ++ [c]) -> In (realpath (abs_path (cs ++ [c]))) fs -> In (realpath (abs_path cs)) fs.
Definition makes_directories (realpath : text -> text) (makedirs : files -> text -> outcome files) : Prop :=
  forall fs D fs1, Forall plain D -> makedirs fs (abs_path D) = Ret fs1 -> In (realpath (abs_path D)) fs1 /\ (tree realpath fs -> tree realpath fs1).
(** extensions have a letter and no slash *)
Definition has_nondot (e : text) : Prop := exists c, In c e /\ c <> DOT.
Definition sane_extensions (guess_extension : text -> option text) : Prop :=
  forall m e, guess_extension m = Some e -> e <> [] -> no_slash e /\ has_nondot e.

Lemma nondot_plain x : no_slash x -> has_nondot x -> plain x.
Proof.
  intros Hs (c & Hc & Hd). split; [intros ->; destruct Hc|]. split; [intros ->; destruct Hc as [H|[]]; congruence|]. split; [intros ->; destruct Hc as [H|[H|[]]]; congruence|exact Hs].
Qed.
Lemma no_slash_app a b : no_slash (a ++ b) <-> no_slash a /\ no_slash b.
Proof. unfold no_slash. rewrite in_app_iff. tauto. Qed.
Lemma splitext_parts p : fst (splitext p) ++ snd (splitext p) = p.
Proof.
  unfold splitext. destruct (rfind DOT p) as [d|]; cbn [fst snd]; [|apply app_nil_r]. cbn zeta.
  destruct (Nat.ltb _ _); [apply app_nil_r|]. destruct (existsb _ _); cbn [fst snd]; [apply firstn_skipn|apply app_nil_r].
Qed.
Lemma plain_or_dots f : f <> [] -> no_slash f -> plain f \/ f = [DOT] \/ f = DOTS.
Proof.
  intros H1 H2. destruct (text_eqb f [DOT]) eqn:E1; [apply text_eqb_eq in E1; auto|]. destruct (text_eqb f DOTS) eqn:E2; [apply text_eqb_eq in E2; auto|].
  left. split; [exact H1|]. split; [intros ->; discriminate|]. split; [intros ->; discriminate|exact H2].
Qed.
Lemma html_ok : no_slash (B ".html") /\ has_nondot (B ".html").
Proof. split; [unfold no_slash, SLASH; cbn; intuition discriminate|exists 104%N; split; [right; left; reflexivity|discriminate]]. Qed.
Lemma with_ext a e : no_slash a -> no_slash e -> has_nondot e -> plain (a ++ e).
Proof. intros Ha He (c & Hc & Hd). apply nondot_plain; [apply no_slash_app; auto|]. exists c. split; [apply in_or_app; right; exact Hc|exact Hd]. Qed.
Lemma name_ext_plain alnum ge url mime dn name ext : sane_extensions ge -> plain dn -> name_ext alnum ge url mime dn = (name, ext) ->
  no_slash name /\ no_slash ext /\ (plain (name ++ ext) \/ (ext = [] /\ (name = [DOT] \/ name = DOTS))).
Proof.
  intros Hg Hd H. unfold name_ext in H. pose proof (url_file_no_slash alnum url) as Hu. destruct html_ok as [Hh1 Hh2].
  set (f := url_file alnum url) in *. clearbody f.
  assert (P : exists a b, no_slash a /\ no_slash b /\ (plain (a ++ b) \/ (b = [] /\ (a = [DOT] \/ a = DOTS))) /\
             match mime with
             | Some ((_ :: _) as m) => match ge m with Some ((_ :: _) as e) => (a, e) | _ => (a, b) end
             | _ => (a, match b with [] => B ".html" | _ => b end)
             end = (name, ext)).
  { destruct f as [|x f'].
    - exists dn, []. destruct Hd as (D1 & D2 & D3 & D4). split; [exact D4|]. split; [intros []|]. split; [left; rewrite app_nil_r; split; auto|exact H].
    - set (g := x :: f') in *. pose proof (splitext_parts g) as Eg. destruct (splitext g) as [a b] eqn:Es. cbn [fst snd] in Eg. exists a, b.
      assert (Hab : no_slash a /\ no_slash b) by (apply no_slash_app; rewrite Eg; exact Hu). destruct Hab as [Ha Hb]. split; [exact Ha|]. split; [exact Hb|]. split; [|exact H].
      destruct (plain_or_dots g) as [Hp|[E|E]]; [discriminate|exact Hu|left; rewrite Eg; exact Hp| |].
      + rewrite E in Es. change (splitext [DOT]) with ([DOT], @nil N) in Es. injection Es as <- <-. right. auto.
      + rewrite E in Es. change (splitext DOTS) with (DOTS, @nil N) in Es. injection Es as <- <-. right. auto. }
  clear H. destruct P as (a & b & Ha & Hb & Hp & H).
  assert (K : (name, ext) = (a, b) \/ (name = a /\ no_slash ext /\ has_nondot ext)).
  { destruct mime as [[|y m]|].
    - destruct b; injection H as <- <-; auto.
    - destruct (ge (y :: m)) as [[|z e]|] eqn:Eg; [injection H as <- <-; auto| |injection H as <- <-; auto]. destruct (Hg _ _ Eg) as [G1 G2]; [discriminate|]. injection H as <- <-. auto.
    - destruct b; injection H as <- <-; auto. }
  destruct K as [K|(-> & K1 & K2)]; [injection K as -> ->; auto|]. split; [exact Ha|]. split; [exact K1|]. left. apply with_ext; assumption.
Qed.
Lemma short_sub name ext : incl (short_name name ext) name.
Proof. unfold short_name, upto. destruct (Z.ltb _ _); intros c Hc; match type of Hc with In _ (firstn ?n _) => rewrite <- (firstn_skipn n name) end; apply in_or_app; left; exact Hc. Qed.
Lemma short_plain name ext : plain (name ++ ext) -> plain (short_name name ext ++ ext).
Proof.
  intros (H1 & H2 & H3 & H4). apply no_slash_app in H4 as [H4 H5]. assert (Hs : no_slash (short_name name ext ++ ext)).
  { apply no_slash_app. split; [intro X; apply H4; exact (short_sub _ _ _ X)|exact H5]. }
  destruct (le_lt_dec (List.length (name ++ ext)) 2) as [L|L].
  - assert (E : short_name name ext = name).
    { unfold short_name, upto. rewrite app_length in L. destruct (Z.ltb_spec (45 - Z.of_nat (List.length ext)) 0); [lia|]. apply firstn_all2. lia. }
    rewrite E in *. split; auto.
  - assert (L2 : 2 < List.length (short_name name ext ++ ext)).
    { rewrite app_length in *. unfold short_name, upto. destruct (Z.ltb_spec (45 - Z.of_nat (List.length ext)) 0); [lia|]. rewrite firstn_length. lia. }
    split; [|split; [|split; [|exact Hs]]]; intros E; rewrite E in L2; cbn in L2; lia.
Qed.
Lemma walk_plain D c : plain c -> walk D [c] = D ++ [c].
Proof. intros (H1 & H2 & H3 & H4). cbn [walk]. rewrite !text_eqb_neq by assumption. reflexivity. Qed.

Theorem C73_below : forall alnum guess_extension realpath fresh_id makedirs fuel k fs ds url mime default_name p coll fs1 k1,
  normal_names realpath -> keeps_files makedirs -> makes_directories realpath makedirs -> tree realpath fs ->
  sane_extensions guess_extension -> (forall i, no_slash (fresh_id i)) -> plain default_name -> Forall plain ds ->
  stays 0 (url_dirs alnum url) -> List.length (abs_path (walk ds (url_dirs alnum url))) <= 200 ->
  output_file alnum guess_extension realpath fresh_id makedirs fuel k fs (abs_path ds) url mime default_name = Ret (p, coll, fs1, k1) ->
  exists more fname, Forall plain more /\ plain fname /\ p = realpath (abs_path (ds ++ more ++ [fname])).
Proof.
  intros alnum ge rp fi md fuel k fs ds url mime dn p coll fs1 k1 Hr Hk Hm Ht Hg Hf Hdn Hds Hst Hl H.
  destruct (C73_directory_below alnum ds url Hds Hst Hl) as [Ed Hmore]. set (more := walk [] (url_dirs alnum url)) in *. exists more.
  destruct (C73_new_file _ _ _ _ _ _ _ _ _ _ _ _ _ _ _ _ Hr Hk H) as [Nw _].
  assert (Hex : In (rp (abs_path (ds ++ more))) fs1 /\ tree rp fs1).
  { unfold output_file in H. destruct (name_ext alnum ge url mime dn) as [name ext]. rewrite Ed in H.
    destruct (path_exists rp fs (abs_path (ds ++ more))) eqn:E.
    - destruct (unused rp fi fuel k fs (abs_path (ds ++ more)) name ext _ false) as [[[q c] k']|e|]; [|discriminate|discriminate]. injection H as _ _ <- _.
      apply path_exists_in in E. auto.
    - destruct (md fs (abs_path (ds ++ more))) as [f1|e|] eqn:E2; [|discriminate|discriminate].
      destruct (unused rp fi fuel k f1 (abs_path (ds ++ more)) name ext _ false) as [[[q c] k']|e|]; [|discriminate|discriminate]. injection H as _ _ <- _.
      destruct (Hm _ (ds ++ more) _ (proj2 (Forall_app _ _ _) (conj Hds Hmore)) E2) as (M1 & M2). auto. }
  destruct Hex as [Hex Ht1].
  destruct (name_ext alnum ge url mime dn) as [name ext] eqn:En. destruct (name_ext_plain _ _ _ _ _ _ _ Hg Hdn En) as (Sn & Se & Sp).
  destruct (C73_name _ _ _ _ _ _ _ _ _ _ _ _ _ _ _ _ _ _ En H) as (fname & Ep & F1 & F2 & _). rewrite Ed in Ep.
  assert (HD : Forall plain (ds ++ more)) by (apply Forall_app; auto).
  assert (J : forall g, g <> [] -> no_slash g -> normpath (join_path (abs_path (ds ++ more)) g) = abs_path (walk (ds ++ more) [g])).
  { intros g Hg1 Hg2. rewrite join_abs; [|apply plain_names; exact HD|exact Hg1|exact Hg2]. apply normpath_abs; [exact HD|]. constructor; [auto|constructor]. }
  assert (Fin : plain fname -> exists fname, Forall plain more /\ plain fname /\ p = rp (abs_path (ds ++ more ++ [fname]))).
  { intro Pf. exists fname. split; [exact Hmore|]. split; [exact Pf|]. rewrite Ep. f_equal. destruct Pf as (P1 & P2 & P3 & P4). rewrite J by assumption.
    rewrite walk_plain by (split; auto). rewrite <- app_assoc. reflexivity. }
  destruct coll.
  - destruct (F2 eq_refl) as (i & _ & Efn). apply Fin. rewrite Efn. apply nondot_plain.
    + rewrite !no_slash_app. split; [intro X; apply Sn; exact (short_sub _ _ _ X)|]. split; [unfold no_slash, SLASH; cbn; intuition discriminate|]. split; [apply Hf|exact Se].
    + exists 95%N. split; [|discriminate]. apply in_or_app. right. left. reflexivity.
  - specialize (F1 eq_refl). destruct Sp as [Sp|(-> & Sp)]; [apply Fin; rewrite F1; apply short_plain; exact Sp|]. exfalso. apply Nw. rewrite Ep.
    destruct Sp as [-> | ->].
    + change (short_name [DOT] [] ++ []) with [DOT] in F1. rewrite F1, J; [|discriminate|unfold no_slash, SLASH; cbn; intuition discriminate]. cbn [walk]. change (text_eqb [DOT] [DOT]) with true. exact Hex.
    + change (short_name DOTS [] ++ []) with DOTS in F1. rewrite F1, J; [|discriminate|unfold no_slash, SLASH; cbn; intuition discriminate]. cbn [walk].
      change (text_eqb DOTS [DOT]) with false. change (text_eqb DOTS DOTS) with true.
      clear - Hex Ht1 HD. revert Hex HD. generalize (ds ++ more). intros D Hex HD. destruct D as [|c D] using rev_ind; [exact Hex|]. clear IHD. rewrite removelast_last. apply (Ht1 D c); [exact HD|exact Hex].
Qed.

(** ** C73: the script *)
Theorem C73_script_writes_no_page : forall st, snd (fst (unpack_records st)) = ([], 0).
Proof.
  intro st. unfold unpack_records, for_read_records. generalize (file_fuel (s_fh st)). intro n. 
  assert (G : forall n s st, snd (fst (read_loop n None true unpack_body s st)) = s); [|apply G].
  clear. induction n as [|n IH]; intros s st; [reflexivity|]. cbn [read_loop]. destruct (read_record st true) as [[it|e|] st1]; [|reflexivity|reflexivity].
  assert (B : snd (fst (unpack_body s st1 it)) = s).
  { unfold unpack_body. destruct (snd (fst it)) as [r|]; [|reflexivity]. unfold unpack_record. destruct (rec_content r st1) as [[[[ct bs]|e|] r'] st']; [|reflexivity|reflexivity].
    destruct (is_some_eq (rec_type r') V_RESPONSE); [|reflexivity]. destruct ct; reflexivity. }
  destruct (unpack_body s st1 it) as [[[[|]|e|] s'] st2]; cbn [fst snd] in B; subst s'; [|reflexivity|reflexivity|reflexivity].
  destruct (snd (fst it)); [apply IH|reflexivity].
Qed.
(** with a file argument or a log file it ends with TypeError at once, having emptied the index file *)
Theorem C73_script_fails : forall output_dir log args stdin, args <> [] \/ log <> None ->
  exists index, unpack_main output_dir log args stdin = (Raise ETypeError, [index]).
Proof.
  intros od [l|] [|f args] stdin H; cbn [unpack_main print_to_binary bind]; try (eexists; reflexivity). destruct H; congruence.
Qed.
(** and without either, reading text from standard input, too *)
Theorem C73_script_fails_on_stdin : forall {S A} (h : handle S) gz_line skip parse (fuel lines : nat) body (a : A) (s : S) output_dir,
  text_mode h ->
  let run := unpack_stdin h gz_line skip parse (Datatypes.S fuel) (Datatypes.S lines) body a s in
  snd (fst run) = a /\
  unpack_main output_dir None [] (fst (fst run)) =
    (match h_tell h s with
     | (Ret _, s1) => match h_readline h s1 with (Ret _, _) => Raise ETypeError | (Raise e, _) => Raise e | (Diverge, _) => Diverge end
     | (Raise e, _) => Raise e
     | (Diverge, _) => Diverge
     end, []).
Proof.
  intros S A h gz skip parse fuel lines body a s od H run. unfold run, unpack_stdin, stdin_open, unpack_main. cbn [h_open andthen yields snd fst h_records].
  rewrite (C72_text_handle_read_offsets h skip parse lines s H). destruct (h_tell h s) as [[n|e|] s1]; [|split; reflexivity|split; reflexivity].
  destruct (h_readline h s1) as [[x|e|] s2]; split; reflexivity.
Qed.

(** ** Normal paths are their own normal form *)
Definition normal (absolute : bool) (comps : list text) : Prop :=
  exists k ps, comps = repeat DOTS k ++ ps /\ Forall plain ps /\ (absolute = true -> k = 0).
Lemma repeat_snoc {X} (x : X) k : repeat x (S k) = repeat x k ++ [x].
Proof. change [x] with (repeat x 1). rewrite <- repeat_app. f_equal. lia. Qed.
Lemma step_normal ab acc c : normal ab (rev acc) -> no_slash c -> normal ab (rev (norm_step ab acc c)).
Proof.
  intros (k & ps & E & Hp & Ha) Hc. unfold norm_step. destruct (text_eqb c []) eqn:E0; cbn [orb]; [exists k, ps; auto|]. destruct (text_eqb c [DOT]) eqn:E1; [exists k, ps; auto|].
  destruct (text_eqb c DOTS) eqn:E2; cbn [negb].
  - apply text_eqb_eq in E2. subst c. destruct acc as [|t r].
    + destruct ab; [exists 0, []; repeat split; [constructor]|]. exists 1, []. split; [reflexivity|]. split; [constructor|discriminate].
    + cbn [rev] in E. destruct ps as [|q ps] using rev_ind.
      * rewrite app_nil_r in E. destruct k as [|k]; [destruct (rev r); discriminate|]. rewrite repeat_snoc in E. apply app_inj_tail in E as [E ->].
        change (text_eqb DOTS DOTS) with true. exists (S (S k)), []. split; [|split; [constructor|intro X; specialize (Ha X); lia]].
        transitivity ((rev r ++ [DOTS]) ++ [DOTS]); [reflexivity|]. rewrite app_nil_r, (repeat_snoc DOTS (S k)), (repeat_snoc DOTS k). f_equal. f_equal. exact E.
      * clear IHps. rewrite app_assoc in E. apply app_inj_tail in E as [E ->]. apply Forall_app in Hp as [Hp Ht]. apply Forall_inv in Ht as (_ & _ & Ht & _).
        rewrite text_eqb_neq by exact Ht. exists k, ps. auto.
  - exists k, (ps ++ [c]). cbn [rev]. rewrite E, <- app_assoc. split; [reflexivity|]. split; [|exact Ha]. apply Forall_app. split; [exact Hp|]. constructor; [|constructor].
    split; [intros ->; discriminate|]. split; [intros ->; discriminate|]. split; [intros ->; discriminate|exact Hc].
Qed.
Lemma fold_normal ab l : forall acc, normal ab (rev acc) -> Forall no_slash l -> normal ab (rev (fold_left (norm_step ab) l acc)).
Proof. induction l as [|c l IH]; intros acc H Hl; [exact H|]. inversion Hl; subst. cbn [fold_left]. apply IH; [apply step_normal; assumption|assumption]. Qed.
Lemma fold_plain ab ps : forall acc, Forall plain ps -> fold_left (norm_step ab) ps acc = rev ps ++ acc.
Proof.
  induction ps as [|c ps IH]; intros acc H; [reflexivity|]. inversion H as [|? ? (H1 & H2 & H3 & H4) H']; subst. cbn [fold_left]. unfold norm_step at 2.
  rewrite !text_eqb_neq by assumption. cbn [orb negb]. rewrite IH by assumption. cbn [rev]. rewrite <- app_assoc. reflexivity.
Qed.
Lemma fold_dots k : forall j, fold_left (norm_step false) (repeat DOTS k) (repeat DOTS j) = repeat DOTS (k + j).
Proof.
  induction k as [|k IH]; intro j; [reflexivity|]. cbn [repeat fold_left]. assert (E : norm_step false (repeat DOTS j) DOTS = repeat DOTS (S j)) by (destruct j; reflexivity).
  rewrite E, IH. change (DOTS :: repeat DOTS (k + j)) with (repeat DOTS (S (k + j))). f_equal. lia.
Qed.
Lemma rev_repeat {X} (x : X) k : rev (repeat x k) = repeat x k.
Proof. induction k as [|k IH]; [reflexivity|]. cbn [repeat rev]. rewrite IH, <- repeat_snoc. reflexivity. Qed.
Lemma normal_fold ab comps : normal ab comps -> rev (fold_left (norm_step ab) comps []) = comps.
Proof.
  intros (k & ps & -> & Hp & Ha). rewrite fold_left_app, fold_plain by exact Hp. rewrite rev_app_distr, rev_involutive. f_equal. destruct ab.
  - rewrite (Ha eq_refl). reflexivity.
  - pose proof (fold_dots k 0) as E. cbn [repeat] in E. rewrite E, Nat.add_0_r. apply rev_repeat.
Qed.
Lemma normal_names_of ab comps : normal ab comps -> names comps.
Proof.
  intros (k & ps & -> & Hp & _). apply Forall_app. split; [|apply plain_names; exact Hp]. apply Forall_forall. intros x Hx. apply repeat_spec in Hx. subst x.
  split; [discriminate|unfold no_slash, SLASH; cbn; intuition discriminate].
Qed.
Lemma join_not_abs comps : names comps -> is_abs (join [SLASH] comps) = false.
Proof.
  intro H. destruct comps as [|c comps]; [reflexivity|]. inversion H as [|? ? [Hc1 Hc2] _]; subst. destruct c as [|x c]; [congruence|].
  assert (X : (SLASH =? x)%N = false) by (apply N.eqb_neq; intros <-; apply Hc2; left; reflexivity). unfold is_abs.
  destruct comps; cbn [join app startswith]; rewrite X; reflexivity.
Qed.
Lemma initial_of n t : n <= 2 -> is_abs t = false -> initial_slashes (repeat SLASH n ++ t) = n.
Proof.
  intros Hn Ht. unfold initial_slashes, is_abs in *. destruct n as [|[|[|n]]]; [| | |lia]; cbn [repeat app].
  - rewrite Ht. reflexivity.
  - cbn [startswith]. rewrite N.eqb_refl. cbn [andb]. destruct t as [|x t]; [reflexivity|]. cbn [startswith] in *. rewrite andb_true_r in Ht. rewrite Ht. reflexivity.
  - cbn [startswith]. rewrite N.eqb_refl. cbn [andb]. destruct t as [|x t]; [reflexivity|]. cbn [startswith] in *. rewrite andb_true_r in Ht. rewrite Ht. reflexivity.
Qed.
Lemma fold_slashes ab n t : fold_left (norm_step ab) (split_slash (repeat SLASH n ++ t)) [] = fold_left (norm_step ab) (split_slash t) [].
Proof. induction n as [|n IH]; [reflexivity|]. cbn [repeat app split_slash]. rewrite N.eqb_refl. cbn [fold_left]. exact IH. Qed.
Lemma normpath_normal n comps : n <= 2 -> normal (Nat.ltb 0 n) comps -> repeat SLASH n ++ join [SLASH] comps <> [] ->
  normpath (repeat SLASH n ++ join [SLASH] comps) = repeat SLASH n ++ join [SLASH] comps.
Proof.
  intros Hn Hc Hne. set (r := repeat SLASH n ++ join [SLASH] comps) in *. pose proof (normal_names_of _ _ Hc) as Hnm.
  assert (E1 : initial_slashes r = n) by (apply initial_of; [exact Hn|apply join_not_abs; exact Hnm]).
  assert (E2 : rev (fold_left (norm_step (Nat.ltb 0 n)) (split_slash r) []) = comps).
  { unfold r. rewrite fold_slashes. destruct comps as [|c cs]; [reflexivity|]. rewrite split_join; [apply normal_fold; exact Hc|discriminate|]. eapply Forall_impl; [|exact Hnm]. intros ? []; assumption. }
  unfold normpath. destruct r as [|x r'] eqn:Er; [congruence|]. rewrite <- Er in *. rewrite E1, E2. cbn zeta. fold r. rewrite Er. reflexivity.
Qed.
Theorem C73_normal_form : forall p, normpath (normpath p) = normpath p.
Proof.
  intro p. destruct p as [|x p']; [reflexivity|]. set (q := x :: p'). unfold normpath at 2. unfold q at 1. fold q. unfold normpath at 2. unfold q at 2. fold q.
  set (n := initial_slashes q). set (comps := rev (fold_left (norm_step (Nat.ltb 0 n)) (split_slash q) [])).
  assert (Hn : n <= 2) by (unfold n, initial_slashes; destruct (is_abs q); [destruct (_ && _)|]; lia).
  assert (Hc : normal (Nat.ltb 0 n) comps) by (apply fold_normal; [exists 0, []; repeat split; constructor|apply split_no_slash]).
  destruct (repeat SLASH n ++ join [SLASH] comps) as [|y r] eqn:Er; [reflexivity|]. rewrite <- Er. apply normpath_normal; [exact Hn|exact Hc|rewrite Er; discriminate].
Qed.

(** ** A concrete case: a file system without links *)
Definition case_dirs (cs : list text) : list text := map (fun n => abs_path (firstn n cs)) (seq 0 (S (List.length cs))).
Definition case_makedirs (fs : files) (d : text) : outcome files := Ret (case_dirs (tl (split_slash d)) ++ fs).
Definition case_alnum (c : N) : bool := ((48 <=? c) && (c <=? 57) || (65 <=? c) && (c <=? 90) || (97 <=? c) && (c <=? 122))%N.
Definition case_extension (m : text) : option text := if text_eqb m (B "text/html") then Some (B ".html") else None.
Definition case_id (k : nat) : text := repeat 97%N (S k).
Definition case_root : files := [abs_path []].
Lemma abs_path_normal cs : Forall plain cs -> normpath (abs_path cs) = abs_path cs.
Proof.
  intro H. pose proof (normpath_abs [] cs ltac:(constructor) (plain_names _ H)) as E. cbn [app] in E. rewrite E. f_equal.
  destruct (walk_step cs [] ltac:(constructor) (plain_names _ H)) as [Ew _]. unfold step_up in Ew. cbn [rev] in Ew. rewrite <- Ew, fold_plain by exact H. rewrite app_nil_r. apply rev_involutive.
Qed.
Lemma abs_split cs : cs <> [] -> names cs -> split_slash (abs_path cs) = [] :: cs.
Proof.
  intros H Hn. unfold abs_path. cbn [split_slash]. rewrite N.eqb_refl. rewrite split_join; [reflexivity|exact H|]. eapply Forall_impl; [|exact Hn]. intros ? []; assumption.
Qed.
Lemma abs_inj cs cs2 : cs <> [] -> names cs -> names cs2 -> abs_path cs = abs_path cs2 -> cs = cs2.
Proof.
  intros H H1 H2 E. pose proof (abs_split cs H H1) as X. rewrite E in X. destruct cs2 as [|c cs2]; [|rewrite abs_split in X by (assumption || discriminate); congruence].
  change (split_slash (abs_path [])) with [@nil N; []] in X. injection X as X. subst cs. inversion H1 as [|? ? [Y _] _]. congruence.
Qed.
Lemma case_makes : makes_directories normpath case_makedirs.
Proof.
  intros fs D fs1 HD H. assert (fs1 = case_dirs (tl (split_slash (abs_path D))) ++ fs) as -> by (unfold case_makedirs in H; congruence). clear H. rewrite (abs_path_normal D HD).
  assert (Full : In (abs_path D) (case_dirs (tl (split_slash (abs_path D))))).
  { unfold case_dirs. apply in_map_iff. destruct D as [|d D]; [exists 0; split; [reflexivity|left; reflexivity]|]. rewrite abs_split by (discriminate || apply plain_names; exact HD). cbn [tl].
    exists (List.length (d :: D)). rewrite firstn_all. split; [reflexivity|]. apply in_seq. lia. }
  split; [apply in_or_app; left; exact Full|]. intros Ht cs c Hp Hin. rewrite (abs_path_normal _ Hp) in Hin.
  assert (Hcs : Forall plain cs) by (apply Forall_app in Hp as [X _]; exact X). rewrite (abs_path_normal _ Hcs).
  apply in_app_or in Hin as [Hin|Hin].
  - apply in_or_app. left. unfold case_dirs in *. apply in_map_iff in Hin as (n & E & Hn). apply in_seq in Hn. destruct D as [|d D].
    + exfalso. change (tl (split_slash (abs_path []))) with [@nil N] in E. assert (Z : abs_path (firstn n [@nil N]) = abs_path []) by (destruct n as [|[|n]]; reflexivity). unfold bytes in *. rewrite Z in E.
      symmetry in E. apply abs_inj in E; [destruct cs; discriminate|destruct cs; discriminate|apply plain_names; exact Hp|constructor].
    + rewrite abs_split in E, Hn |- * by (discriminate || apply plain_names; exact HD). cbn [tl] in *.
      assert (HF : forall m, names (firstn m (d :: D))).
      { intro m. apply Forall_forall. intros y Hy. pose proof (plain_names _ HD) as Q. unfold names in Q. rewrite Forall_forall in Q. apply Q. rewrite <- (firstn_skipn m (d :: D)). apply in_or_app. left. exact Hy. }
      symmetry in E. apply abs_inj in E; [|destruct cs; discriminate|apply plain_names; exact Hp|apply HF].
      assert (L : List.length cs + 1 <= List.length (d :: D)) by (transitivity (List.length (firstn n (d :: D))); [rewrite <- E, app_length; reflexivity|rewrite firstn_length; lia]).
      apply in_map_iff. exists (List.length cs). split; [|apply in_seq; lia]. f_equal.
      assert (P : firstn (List.length cs) (firstn n (d :: D)) = cs) by (rewrite <- E, firstn_app, Nat.sub_diag, firstn_all; cbn [firstn]; apply app_nil_r).
      rewrite firstn_firstn in P. assert (Lc : List.length cs + 1 <= n) by (transitivity (List.length (firstn n (d :: D))); [rewrite <- E, app_length; reflexivity|rewrite firstn_length; lia]).
      rewrite Nat.min_l in P by lia. exact P.
  - apply in_or_app. right. specialize (Ht cs c Hp). rewrite !abs_path_normal in Ht by assumption. apply Ht. exact Hin.
Qed.
Lemma case_tree : tree normpath case_root.
Proof.
  intros cs c Hp [H|[]]. rewrite (abs_path_normal _ Hp) in H. symmetry in H. apply abs_inj in H; [destruct cs; discriminate|destruct cs; discriminate|apply plain_names; exact Hp|constructor].
Qed.
Example C73_case_hypotheses :
  normal_names normpath /\ keeps_files case_makedirs /\ makes_directories normpath case_makedirs /\ tree normpath case_root /\
  sane_extensions case_extension /\ (forall i, no_slash (case_id i)) /\ plain (B "index") /\ Forall plain [B "out"] /\
  stays 0 (url_dirs case_alnum (B "http://h/a/../b.php?x=1")) /\
  (forall d name ext i j, normpath (candidate case_id (abs_path [d]) name ext i) = normpath (candidate case_id (abs_path [d]) name ext j) -> plain d -> no_slash name -> no_slash ext -> i = j).
Proof.
  split; [exact C73_normal_form|]. split; [intros fs d fs1 H; assert (fs1 = case_dirs (tl (split_slash d)) ++ fs) as -> by (unfold case_makedirs in H; congruence); apply incl_appr, incl_refl|]. split; [exact case_makes|]. split; [exact case_tree|].
  assert (I : forall i, no_slash (case_id i)) by (intros i H; apply repeat_spec in H; discriminate).
  split; [|split; [exact I|split; [|split; [constructor; [|constructor]|split; [vm_compute; exact Logic.I|]]]]].
  - intros m e H _. unfold case_extension in H. destruct (text_eqb m _); [|discriminate]. injection H as <-. exact html_ok.
  - split; [discriminate|]. split; [discriminate|]. split; [discriminate|unfold no_slash, SLASH; cbn; intuition discriminate].
  - split; [discriminate|]. split; [discriminate|]. split; [discriminate|unfold no_slash, SLASH; cbn; intuition discriminate].
  - intros d name ext i j E Hd Hn He.
    assert (P : forall i, plain (short_name name ext ++ B "_R" ++ case_id i ++ ext)).
    { intro m. apply nondot_plain; [|exists 95%N; split; [apply in_or_app; right; left; reflexivity|discriminate]].
      rewrite !no_slash_app. split; [intro X; apply Hn; exact (short_sub _ _ _ X)|]. split; [unfold no_slash, SLASH; cbn; intuition discriminate|]. split; [apply I|exact He]. }
    assert (Q : forall i, normpath (candidate case_id (abs_path [d]) name ext i) = abs_path [d; short_name name ext ++ B "_R" ++ case_id i ++ ext]).
    { intro m. unfold candidate. destruct (P m) as (P1 & P2 & P3 & P4). rewrite join_abs; [|constructor; [destruct Hd as (? & _ & _ & ?); auto|constructor]|exact P1|exact P4].
      apply abs_path_normal. constructor; [exact Hd|]. constructor; [exact (P m)|constructor]. }
    rewrite !Q in E. apply abs_inj in E; [|discriminate|apply plain_names; constructor; [exact Hd|constructor; [apply P|constructor]]|apply plain_names; constructor; [exact Hd|constructor; [apply P|constructor]]].
    apply (f_equal (fun l => List.length (nth 1 l []))) in E. cbn [nth] in E. rewrite !app_length in E. unfold case_id in E. rewrite !repeat_length in E. lia.
Qed.
Example C73_case :
  (* the page of a URL with a query, twice; then one that climbs out of the output directory *)
  omap fst (write_pages case_alnum case_extension normpath case_id case_makedirs 9 0 case_root (abs_path [B "out"]) (B "index")
     [(B "http://h/a/../b.php?x=1", Some (B "text/html")); (B "http://h/b.php", Some (B "text/html")); (B "http://h/", None); (B "http://h/../../etc/x", Some (B "a/b"))]) =
  Ret [B "/out/http/h/b.html"; B "/out/http/h/b_Ra.html"; B "/out/http/h/index.html"; B "/out/etc/x"] /\
  omap fst (write_pages case_alnum case_extension normpath case_id case_makedirs 9 0 case_root (abs_path [B "out"]) (B "index")
     [(B "http://h/../../../etc/x", Some (B "a/b"))]) = Ret [B "/etc/x"] /\
  (* the names stay below, but cutting the directory at 200 characters leaves .. *)
  (let d := repeat 97%N 196 in stays 0 (url_dirs case_alnum (B "..foo/x")) /\
   omap fst (write_pages case_alnum case_extension normpath case_id case_makedirs 9 0 case_root (abs_path [d]) (B "index") [(B "..foo/x", Some (B "a/b"))]) = Ret [B "/x"]).
Proof. split; [vm_compute; reflexivity|]. split; [vm_compute; reflexivity|]. split; [vm_compute; exact I|vm_compute; reflexivity]. Qed.
