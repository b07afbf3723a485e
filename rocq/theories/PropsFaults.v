(** C69: reading an archive whose read calls fail at some point; compressed archives that are
    cut off or damaged. *)
From Verif Require Export FaultFacts PropsResume.
From Verif Require PropsSink.
From Coq Require Import String List Lia ZArith Bool.
Open Scope list_scope.

(** ** Specification *)
(** What a caller gets to see: the items handed out by the loop, and what the calls it makes on
    the content of each record return.  [plan] chooses the calls for an item, from all that was
    seen before.  An exception is passed on. *)
Inductive event : Type := Handed (it : item) | Got (d : bytes).
(** without failures; each event with the position of the file after it *)
Fixpoint calls (cs : list cop) (seen : list (event * nat)) (st : stream) : outcome bool * list (event * nat) * stream :=
  match cs with
  | [] => (Ret true, seen, st)
  | c :: cs' =>
      match run_cop st c with
      | (Ret d, st') => calls cs' (seen ++ [(Got d, f_pos (s_fh st'))]) st'
      | (Raise e, st') => (Raise e, seen, st')
      | (Diverge, st') => (Diverge, seen, st')
      end
  end.
Definition watching (plan : list event -> item -> list cop) (seen : list (event * nat)) (st : stream) (it : item)
  : outcome bool * list (event * nat) * stream :=
  calls (plan (map fst seen) it) (seen ++ [(Handed it, f_pos (s_fh st))]) st.
(** the same caller with a file whose calls can fail *)
Fixpoint x_calls {F} (ops : fops F) (cs : list cop) (seen : list event) (st : fstream F) : outcome bool * list event * fstream F :=
  match cs with
  | [] => (Ret true, seen, st)
  | c :: cs' =>
      match x_run_cop ops st c with
      | (Ret d, st') => x_calls ops cs' (seen ++ [Got d]) st'
      | (Raise e, st') => (Raise e, seen, st')
      | (Diverge, st') => (Diverge, seen, st')
      end
  end.
Definition x_watching {F} (ops : fops F) (plan : list event -> item -> list cop) (seen : list event) (st : fstream F) (it : item)
  : outcome bool * list event * fstream F :=
  x_calls ops (plan seen it) (seen ++ [Handed it]) st.

(** ** Lemmas *)
Section Watch.
  Context {F : Type} (ops : fops F) (budget : nat) (R0 : F -> file -> Prop) (fault : exn -> Prop) (lost0 : file -> Prop).
  Hypothesis Hh0 : honest ops R0 fault lost0.
  Hypothesis Hlost0 : forall f f', lost0 f -> f_data f' = f_data f -> f_strict f' = f_strict f -> f_pos f <= f_pos f' -> lost0 f'.
  Variable near0 : nat -> Prop.
  Hypothesis Hnear0 : forall f g, R0 f g -> near0 (f_pos g).
  Variable f00 : file.
  Definition same (g : file) : Prop := f_data g = f_data f00 /\ f_strict g = f_strict f00.
  Definition R (f : F) (g : file) : Prop := R0 f g /\ same g.
  Definition lost (g : file) : Prop := lost0 g /\ same g.
  Lemma ag1_same {A} x (y : outcome A * file) g : ag1 R0 fault lost0 x y -> same g -> f_data (snd y) = f_data g -> f_strict (snd y) = f_strict g -> ag1 R fault lost x y.
  Proof.
    intros H [S1 S2] E1 E2. assert (same (snd y)) by (split; congruence). destruct H as [[E H]|(e & E & Hf & L)]; [left|right; exists e]; repeat split; try assumption; apply H0.
  Qed.
  Lemma Hh : honest ops R fault lost.
  Proof.
    constructor; intros; match goal with H : R _ _ |- _ => destruct H as [H S] end.
    - apply (ag1_same _ _ f0); [apply (h_read _ _ _ _ Hh0), H|exact S| |]; unfold f_read, f_read_all; destruct (n <? 0)%Z; try destruct (_ || _); reflexivity.
    - apply (ag1_same _ _ f0); [apply (h_read_all _ _ _ _ Hh0), H|exact S| |]; reflexivity.
    - apply (ag1_same _ _ f0); [apply (h_readline _ _ _ _ Hh0), H|exact S| |]; reflexivity.
    - apply (ag1_same _ _ f0); [apply (h_readline_lim _ _ _ _ Hh0), H|exact S| |]; reflexivity.
    - apply (ag1_same _ _ f0); [apply (h_tell _ _ _ _ Hh0), H|exact S| |]; reflexivity.
  Qed.
  Lemma Hlost f f' : lost f -> f_data f' = f_data f -> f_strict f' = f_strict f -> f_pos f <= f_pos f' -> lost f'.
  Proof. intros [L [S1 S2]] E1 E2 P. split; [eapply Hlost0; eassumption|]. split; congruence. Qed.

  (** of the file [f00]: the position is in the lost part *)
  Definition gone (p : nat) : Prop := lost0 (mkfile (f_data f00) p (f_strict f00)).
  Lemma lost_gone g : lost g -> gone (f_pos g).
  Proof. intros [L [S1 S2]]. unfold gone. rewrite <- S1, <- S2. destruct g. exact L. Qed.
  Definition Rel (s1 : list event) (s2 : list (event * nat)) : Prop := s1 = map fst s2 /\ Forall (fun ev => near0 (snd ev)) s2.
  Lemma Rel_one s1 s2 ev x y : Rel s1 s2 -> Rst R x y -> Rel (s1 ++ [ev]) (s2 ++ [(ev, f_pos (s_fh y))]).
  Proof.
    intros [-> H] (_ & _ & _ & HR & _). split; [rewrite map_app; reflexivity|]. apply Forall_app. split; [exact H|]. constructor; [|constructor]. exact (Hnear0 _ _ HR).
  Qed.
  Definition Ext (s s' : list (event * nat)) : Prop := exists more, s' = s ++ more /\ Forall (fun ev => gone (snd ev)) more.
  Lemma Ext_refl s : Ext s s. Proof. exists []. rewrite app_nil_r. split; [reflexivity|constructor]. Qed.
  Lemma Ext_trans a b c : Ext a b -> Ext b c -> Ext a c.
  Proof. intros (m1 & -> & H1) (m2 & -> & H2). exists (m1 ++ m2). rewrite app_assoc. split; [reflexivity|]. apply Forall_app. split; assumption. Qed.
  Lemma Ext_one s ev p : gone p -> Ext s (s ++ [(ev, p)]).
  Proof. intro H. exists [(ev, p)]. split; [reflexivity|]. constructor; [exact H|constructor]. Qed.
  Notation Ag := (ag R fault lost).
  Notation Agl := (agl R fault lost Rel Ext).
  Lemma ag_cop x y c : Rst R x y -> Ag (x_run_cop ops x c) (run_cop y c).
  Proof.
    intro H. destruct c as [n|n]; cbn [x_run_cop run_cop]; [apply (ag_read ops R fault lost Hh Hlost), H|].
    pose proof (ag_readline ops R fault lost Hh Hlost x y n H) as X. unfold readline0 in X. destruct (stream_readline y n). exact X.
  Qed.
  Lemma later_calls cs : forall s st, later st (snd (calls cs s st)).
  Proof.
    induction cs as [|c cs IH]; intros s st; cbn [calls]; [apply later_refl|]. pose proof (later_cop st c) as L.
    destruct (run_cop st c) as [[d|e|] s1]; cbn [snd] in *; try exact L. eapply later_trans; [exact L|apply IH].
  Qed.
  Lemma lost_calls cs : forall s st, lost (s_fh st) -> Ext s (snd (fst (calls cs s st))).
  Proof.
    induction cs as [|c cs IH]; intros s st L; cbn [calls]; [apply Ext_refl|]. pose proof (lost_later lost Hlost _ _ L (later_cop st c)) as L1.
    destruct (run_cop st c) as [[d|e|] s1]; cbn [snd fst] in *; try apply Ext_refl.
    eapply Ext_trans; [|apply IH, L1]. apply Ext_one, lost_gone, L1.
  Qed.
  Lemma calls_ends cs : forall s st, fst (fst (calls cs s st)) <> Diverge.
  Proof.
    induction cs as [|c cs IH]; intros s st; cbn [calls]; [discriminate|].
    assert (X : fst (run_cop st c) <> Diverge) by (destruct c as [n|n]; cbn [run_cop]; [apply read_ends|destruct (stream_readline st n); discriminate]).
    destruct (run_cop st c) as [[d|e|] s1]; cbn [fst] in *; [apply IH|discriminate|contradiction].
  Qed.
  Lemma lost_calls2 cs s st : lost (s_fh st) -> lost (s_fh (snd (calls cs s st))).
  Proof. intro L. exact (lost_later lost Hlost _ _ L (later_calls cs s st)). Qed.
  Lemma ag_calls cs : forall s1 s2 x y, Rel s1 s2 -> Rst R x y -> Agl (x_calls ops cs s1 x) (calls cs s2 y).
  Proof.
    induction cs as [|c cs IH]; intros s1 s2 x y HR H; cbn [x_calls calls].
    { left. split; [reflexivity|]. split; [exact HR|]. intros _; exact H. }
    destruct (ag_cop x y c H) as [[E S]|(e & E & He & L)]; destruct (x_run_cop ops x c) as [ox x1]; cbn [fst snd] in E; subst ox.
    - cbn [fst snd] in S. destruct (run_cop y c) as [[d|e|] y1]; cbn [fst snd] in *.
      2,3: left; split; [reflexivity|]; split; [exact HR|]; intro C; cbn [fst snd] in *; apply S; first [discriminate|intro; apply C; reflexivity].
      specialize (S ltac:(discriminate)). apply IH; [|exact S]. exact (Rel_one _ _ _ _ _ HR S).
    - right. exists e, s2. cbn [fst snd]. split; [reflexivity|]. split; [exact He|]. split; [exact HR|].
      destruct (run_cop y c) as [[d|e'|] y1]; cbn [fst snd] in *.
      3: split; [apply Ext_refl|]; intro C; contradiction C; reflexivity.
      2: split; [apply Ext_refl|]; intros _; apply L; discriminate.
      specialize (L ltac:(discriminate)). split; [|intros _; apply lost_calls2, L].
      eapply Ext_trans; [|apply lost_calls, L]. apply Ext_one, lost_gone, L.
  Qed.
  Lemma ag_watch plan off : forall f limit s1 s2 x y, Rel s1 s2 -> Rst R x y -> fits budget y ->
    Agl (x_read_loop ops budget f limit off (x_watching ops plan) s1 x) (read_loop f limit off (watching plan) s2 y).
  Proof.
    apply (ag_loop ops budget R fault lost Hh Hlost Rel Ext Ext_refl Ext_trans).
    - intros s1 s2 x y it HR H _. unfold x_watching, watching. replace (plan s1 it) with (plan (map fst s2) it) by (rewrite (proj1 HR); reflexivity).
      apply ag_calls; [|exact H]. exact (Rel_one _ _ _ _ _ HR H).
    - intros s st it. apply later_calls.
    - intros s st it L. unfold watching. eapply Ext_trans; [|apply lost_calls, L]. apply Ext_one, lost_gone, L.
  Qed.
End Watch.
Lemma watching_later plan : forall s st it, later st (snd (watching plan s st it)).
Proof. intros. apply later_calls. Qed.

(** ** C69 *)
(** In general.  A file whose calls may raise agrees with a file without failures (relation
    [same_file]) when every call on it does what the call on the other one does, or raises one
    of the exceptions [failure], and then the other file is after the call at a place where
    [unreadable] holds. *)
Theorem C69_failing_reads : forall (F : Type) (ops : fops F) (same_file : F -> file -> Prop) (failure : exn -> Prop) (unreadable : file -> Prop)
    (budget : nat) (plan : list event -> item -> list cop) (limit : option nat) (offsets : bool) (kind : skind) (p : parser) (bad : F) (good : file),
  honest ops same_file failure unreadable ->
  (forall f f', unreadable f -> f_data f' = f_data f -> f_strict f' = f_strict f -> f_pos f <= f_pos f' -> unreadable f') ->
  same_file bad good -> file_fuel good <= budget ->
  let '(result, seen, _) := x_for_read_records ops budget limit offsets (x_watching ops plan) [] (x_new kind bad p) in
  let '(result0, seen0, st0) := for_read_records limit offsets (watching plan) [] (new_stream kind good p) in
  let unreadable_at n := unreadable (mkfile (f_data good) n (f_strict good)) in
  (result = result0 /\ seen = map fst seen0) \/
  (exists e kept more, result = Raise e /\ failure e /\ seen0 = kept ++ more /\ seen = map fst kept /\
     Forall (fun ev => unreadable_at (snd ev)) more /\ (result0 <> Diverge -> unreadable_at (f_pos (s_fh st0)))).
Proof.
  intros F ops R0 fault lost0 budget plan limit off kind p bad good Hh0 Hl0 H Hb.
  set (x := x_new kind bad p). set (y := new_stream kind good p).
  assert (Hr : List.length (rest y) + 2 <= file_fuel good) by (exact (rest_len y)).
  assert (HR : Rst (R R0 good) x y) by (repeat split; exact H).
  assert (Hf : fits budget y) by (unfold fits; lia).
  assert (E : for_read_records limit off (watching plan) [] y = read_loop budget limit off (watching plan) [] y).
  { unfold for_read_records. apply loop_fuel; [apply watching_later|exact (rest_fuel y)|unfold bytes in *; lia]. }
  rewrite E. unfold x_for_read_records.
  pose proof (ag_watch ops budget R0 fault lost0 Hh0 Hl0 (fun _ => True) (fun _ _ _ => I) good plan off budget limit [] [] x y (conj eq_refl (Forall_nil _)) HR Hf) as A.
  destruct (x_read_loop ops budget budget limit off (x_watching ops plan) [] x) as [[o h] x1].
  destruct (read_loop budget limit off (watching plan) [] y) as [[o0 h0] y1]. cbv zeta.
  destruct A as [(A1 & (A2 & _) & _)|(e & s & A1 & A2 & (A3 & _) & (more & A4 & A5) & A6)]; cbn [fst snd] in *.
  - left. split; assumption.
  - right. exists e, s, more. split; [exact A1|]. split; [exact A2|]. split; [exact A4|]. split; [exact A3|]. split; [exact A5|].
    intro C. apply (lost_gone lost0), A6, C.
Qed.

(** ** Archives of which only the first bytes can be decompressed *)
Section Cut.
  Variables (P X : bytes) (e : exn).
  Hypothesis HX : X <> [].
  Definition cut_same (c : cutfile) (g : file) : Prop :=
    f_data (c_file c) = P /\ f_data g = P ++ X /\ f_pos g = f_pos (c_file c) /\ f_strict g = f_strict (c_file c) /\ c_exn c = e /\ f_pos g <= List.length P.
  Definition cut_lost (g : file) : Prop := List.length P < f_pos g.
  Lemma cut_rest c g : cut_same c g -> f_rest g = f_rest (c_file c) ++ X /\ List.length (f_rest (c_file c)) = List.length P - f_pos g.
  Proof.
    intros (H1 & H2 & H3 & H4 & H5 & H6). unfold f_rest. rewrite H1, H2, H3 in *. split.
    - rewrite skipn_app. replace (f_pos (c_file c) - List.length P) with 0 by lia. reflexivity.
    - apply skipn_length.
  Qed.
  Lemma cut_advance c g n : cut_same c g -> n <= List.length (f_rest (c_file c)) -> cut_same (mkcut (f_advance (c_file c) n) (c_exn c)) (f_advance g n).
  Proof.
    intros H Hn. destruct (cut_rest c g H) as [_ L]. destruct H as (H1 & H2 & H3 & H4 & H5 & H6). repeat split; cbn; try assumption; lia.
  Qed.
  Lemma take_line_there (s t : bytes) : existsb (N.eqb 10) s = true -> take_line (s ++ t) = take_line s.
  Proof.
    induction s as [|c s IH]; [discriminate|]. cbn [existsb app take_line]. rewrite (N.eqb_sym c 10). destruct (N.eqb 10 c); [reflexivity|]. cbn [orb]. intro H. rewrite IH by exact H. reflexivity.
  Qed.
  Lemma take_line_not (s t : bytes) : existsb (N.eqb 10) s = false -> take_line (s ++ t) = s ++ take_line t.
  Proof.
    induction s as [|c s IH]; [reflexivity|]. cbn [existsb app take_line]. rewrite (N.eqb_sym c 10). destruct (N.eqb 10 c); [discriminate|]. cbn [orb]. intro H. rewrite IH by exact H. reflexivity.
  Qed.
  Lemma take_line_some : 1 <= List.length (take_line X).
  Proof. destruct X as [|c t]; [contradiction|]. cbn [take_line]. destruct (N.eqb c 10); cbn; lia. Qed.
  Lemma take_line_le (s : bytes) : List.length (take_line s) <= List.length s.
  Proof. induction s as [|c s IH]; cbn [take_line List.length]; [lia|]. destruct (N.eqb c 10); cbn [List.length]; lia. Qed.
  Lemma X_some : 1 <= List.length X. Proof. destruct X; [contradiction|cbn; lia]. Qed.
  Ltac lose := right; exists e; split; [cbn [fst]; congruence|]; split; [reflexivity|]; unfold cut_lost; cbn [snd f_advance f_pos].
  Lemma cut_honest : honest cut_ops cut_same (eq e) cut_lost.
  Proof.
    pose proof X_some as X1. constructor.
    - intros c g n H. destruct (cut_rest c g H) as [E L]. pose proof H as (H1 & H2 & H3 & H4 & H5 & H6). cbn [q_read cut_ops]. unfold f_read.
      destruct (n <? 0)%Z eqn:En.
      + rewrite H4. destruct (_ || _).
        * unfold f_read_all. lose. rewrite E, app_length. lia.
        * left. split; [reflexivity|exact H].
      + apply Z.ltb_ge in En. unfold enough. destruct (n <=? _)%Z eqn:El.
        * apply Z.leb_le in El. left. rewrite E. assert (F : firstn (Z.to_nat n) (f_rest (c_file c) ++ X) = firstn (Z.to_nat n) (f_rest (c_file c))).
          { rewrite firstn_app. replace (Z.to_nat n - _) with 0 by lia. cbn [firstn]. apply app_nil_r. }
          unfold with_file. rewrite F. split; [reflexivity|]. cbn [snd]. apply cut_advance; [exact H|]. rewrite firstn_length. lia.
        * apply Z.leb_gt in El. lose. rewrite E, firstn_length, app_length. lia.
    - intros c g H. destruct (cut_rest c g H) as [E L]. pose proof H as (H1 & H2 & H3 & H4 & H5 & H6). cbn [q_read_all cut_ops]. unfold f_read_all. lose. rewrite E, app_length. lia.
    - intros c g H. destruct (cut_rest c g H) as [E L]. pose proof H as (H1 & H2 & H3 & H4 & H5 & H6). cbn [q_readline cut_ops]. unfold f_readline, line_there. rewrite E.
      destruct (existsb (N.eqb 10) (f_rest (c_file c))) eqn:Ex.
      + left. rewrite take_line_there by exact Ex. split; [reflexivity|]. cbn [snd with_file]. apply cut_advance; [exact H|apply take_line_le].
      + rewrite take_line_not by exact Ex. pose proof take_line_some. lose. rewrite app_length. lia.
    - intros c g n H. destruct (cut_rest c g H) as [E L]. pose proof H as (H1 & H2 & H3 & H4 & H5 & H6). cbn [q_readline_lim cut_ops]. unfold f_readline_lim, line_there. rewrite E.
      destruct (existsb (N.eqb 10) (f_rest (c_file c))) eqn:Ex; cbn [orb].
      + left. rewrite take_line_there by exact Ex. split; [reflexivity|]. cbn [snd with_file]. apply cut_advance; [exact H|].
        pose proof (take_line_le (f_rest (c_file c))). destruct (n <? 0)%Z; [exact H0|]. rewrite firstn_length. lia.
      + rewrite take_line_not by exact Ex. pose proof take_line_some. unfold enough. destruct (n <? 0)%Z eqn:En.
        * assert (El : (0 <=? n)%Z = false) by (apply Z.leb_gt; apply Z.ltb_lt; exact En). rewrite El. cbn [andb]. lose. rewrite app_length. lia.
        * apply Z.ltb_ge in En. assert (El : (0 <=? n)%Z = true) by (apply Z.leb_le; exact En). rewrite El. cbn [andb]. destruct (n <=? _)%Z eqn:Ej.
          -- apply Z.leb_le in Ej. left. assert (T : take_line (f_rest (c_file c)) = f_rest (c_file c)) by (pose proof (take_line_not (f_rest (c_file c)) [] Ex) as Q; rewrite !app_nil_r in Q; exact Q).
             rewrite T, firstn_app. replace (Z.to_nat n - _) with 0 by lia. cbn [firstn]. rewrite app_nil_r. split; [reflexivity|]. cbn [snd with_file].
             apply cut_advance; [exact H|]. rewrite firstn_length. lia.
          -- apply Z.leb_gt in Ej. lose. rewrite firstn_length, app_length. lia.
    - intros c g H. left. split; [|exact H]. cbn. unfold f_tell. destruct H as (_ & _ & -> & _). reflexivity.
  Qed.
End Cut.

(** Of an archive only the first bytes, [text], can be had, and [rest] of it is lost: a call
    for which they do not suffice raises [e].  Then a loop over read_records, with any limit and
    any calls on the contents, sees exactly what it would see of the whole archive as far as
    the file need not be read beyond [text] for it, and after that gets the exception. *)
Theorem C69_cut_archive : forall (text rest : bytes) (e : exn) (budget : nat) (plan : list event -> item -> list cop)
    (limit : option nat) (offsets strict : bool) (kind : skind) (p : parser),
  rest <> [] -> file_fuel (mkfile (text ++ rest) 0 strict) <= budget ->
  let '(result, seen, _) := x_for_read_records cut_ops budget limit offsets (x_watching cut_ops plan) []
                              (x_new kind (mkcut (mkfile text 0 strict) e) p) in
  let '(result0, seen0, st0) := for_read_records limit offsets (watching plan) [] (new_stream kind (mkfile (text ++ rest) 0 strict) p) in
  seen = map fst (filter (fun ev => Nat.leb (snd ev) (List.length text)) seen0) /\
  (result0 <> Diverge -> result = if Nat.leb (f_pos (s_fh st0)) (List.length text) then result0 else Raise e) /\
  (result0 = Diverge -> result = Diverge \/ result = Raise e).
Proof.
  intros P X e budget plan limit off strict kind p HX Hb.
  set (good := mkfile (P ++ X) 0 strict) in *. set (bad := mkcut (mkfile P 0 strict) e).
  set (x := x_new kind bad p). set (y := new_stream kind good p).
  assert (Hr : List.length (StreamFacts.rest y) + 2 <= file_fuel good) by (exact (rest_len y)).
  assert (HR : Rst (R (cut_same P X e) good) x y) by (repeat split; cbn; lia).
  assert (Hf : fits budget y) by (unfold fits; lia).
  assert (E : for_read_records limit off (watching plan) [] y = read_loop budget limit off (watching plan) [] y).
  { unfold for_read_records. apply loop_fuel; [apply watching_later|exact (rest_fuel y)|unfold bytes in *; lia]. }
  rewrite E. unfold x_for_read_records.
  assert (Hl : forall f f' : file, cut_lost P f -> f_data f' = f_data f -> f_strict f' = f_strict f -> f_pos f <= f_pos f' -> cut_lost P f') by (unfold cut_lost; intros; lia).
  assert (Hn : forall f g, cut_same P X e f g -> f_pos g <= List.length P) by (intros f g H; apply H).
  pose proof (ag_watch cut_ops budget (cut_same P X e) (eq e) (cut_lost P) (cut_honest P X e HX) Hl (fun n => n <= List.length P) Hn good plan off budget limit [] [] x y (conj eq_refl (Forall_nil _)) HR Hf) as A.
  destruct (x_read_loop cut_ops budget budget limit off (x_watching cut_ops plan) [] x) as [[o h] x1].
  destruct (read_loop budget limit off (watching plan) [] y) as [[o0 h0] y1]. cbv zeta.
  assert (Fk : forall s : list (event * nat), Forall (fun ev => snd ev <= List.length P) s -> filter (fun ev => Nat.leb (snd ev) (List.length P)) s = s).
  { induction s as [|a s IH]; intro H; [reflexivity|]. inversion H as [|? ? H1 H2]; subst. cbn [filter]. apply Nat.leb_le in H1. rewrite H1, IH by exact H2. reflexivity. }
  assert (Fl : forall s : list (event * nat), Forall (fun ev => gone (cut_lost P) good (snd ev)) s -> filter (fun ev => Nat.leb (snd ev) (List.length P)) s = []).
  { induction s as [|a s IH]; intro H; [reflexivity|]. inversion H as [|? ? H1 H2]; subst. cbn [filter]. unfold gone, cut_lost in H1. cbn in H1. apply Nat.leb_gt in H1. rewrite H1. apply IH, H2. }
  destruct A as [(A1 & (A2 & A2') & A3)|(e' & s & A1 & A2 & (A3 & A3') & (more & A4 & A5) & A6)]; cbn [fst snd] in *.
  - rewrite (Fk h0 A2'). split; [exact A2|]. subst o0. split; [|intro C; left; exact C].
    intro C. specialize (A3 C). destruct A3 as (_ & _ & _ & A3 & _). apply Hn in A3. apply Nat.leb_le in A3. rewrite A3. reflexivity.
  - subst e' h0 h o. rewrite filter_app, (Fk s A3'), (Fl more A5), app_nil_r. split; [reflexivity|]. split; [|intros _; right; reflexivity].
    intro C. specialize (A6 C). destruct A6 as [A6 _]. unfold cut_lost in A6. apply Nat.leb_gt in A6. rewrite A6. reflexivity.
Qed.

(** ** Without failures *)
Theorem C69_without_failures : forall (budget : nat) (plan : list event -> item -> list cop) (limit : option nat) (offsets : bool)
    (kind : skind) (p : parser) (f : file),
  file_fuel f <= budget ->
  let '(result, seen, _) := x_for_read_records plain_ops budget limit offsets (x_watching plain_ops plan) [] (x_new kind f p) in
  let '(result0, seen0, _) := for_read_records limit offsets (watching plan) [] (new_stream kind f p) in
  result = result0 /\ seen = map fst seen0.
Proof.
  intros budget plan limit off kind p f Hb.
  assert (Hh0 : honest plain_ops eq (fun _ => False) (fun _ => False)).
  { constructor; intros; subst; left; split; reflexivity. }
  pose proof (C69_failing_reads file plain_ops eq (fun _ => False) (fun _ => False) budget plan limit off kind p f f Hh0 (fun _ _ H _ _ _ => H) eq_refl Hb) as A.
  destruct (x_for_read_records plain_ops budget limit off (x_watching plain_ops plan) [] (x_new kind f p)) as [[o h] x1].
  destruct (for_read_records limit off (watching plan) [] (new_stream kind f p)) as [[o0 h0] y1].
  destruct A as [A|(e & k & m & _ & [] & _)]. exact A.
Qed.

(** ** The end of a cut archive is never taken for the end of the archive *)
(** an item without a record: the file ends, or too many lines were skipped *)
Definition too_many (errs : list perr) : Prop := exists l, errs = l ++ [ErrTooMany].
Lemma readline_nil st : s_eoc st = None -> fst (stream_readline st None) = [] -> StreamFacts.rest st = [].
Proof. intros He H. rewrite readline_none in H by exact He. apply take_line_nil, H. Qed.
Lemma adv_eoc st n : s_eoc (adv st n) = s_eoc st. Proof. reflexivity. Qed.
Lemma find_end f : forall st line o errs q s', s_eoc st = None -> (line = [] -> StreamFacts.rest st = []) ->
  find_version f st line o errs = (Ret (FNone q), s') -> fst (fst q) = None /\ (StreamFacts.rest s' = [] \/ too_many (snd (fst q))).
Proof.
  induction f as [|f IH]; intros st line o errs q s' He Hl H; [discriminate|]. cbn [find_version] in H. destruct line as [|c l].
  - injection H as <- <-. split; [reflexivity|]. left. apply Hl. reflexivity.
  - destruct (re_match version_rx (c :: l)); [discriminate|]. cbn zeta in H. rewrite readline_none in H by exact He.
    assert (N : take_line (StreamFacts.rest st) = [] -> StreamFacts.rest (adv st (List.length (take_line (StreamFacts.rest st)))) = []).
    { intro Z. apply (proj1 (take_line_nil _)) in Z. rewrite rest_adv, Z. apply skipn_nil. }
    destruct (re_test nl_rx (c :: l)); [refine (IH _ _ _ _ _ _ _ N H); exact He|]. destruct (Nat.ltb _ _).
    + injection H as <- <-. split; [reflexivity|]. right. eexists. reflexivity.
    + refine (IH _ _ _ _ _ _ _ N H); exact He.
Qed.
Lemma warc_end f st line o q s' : s_eoc st = None -> (line = [] -> StreamFacts.rest st = []) ->
  warc_parse_fuel f st o (Some line) = (Ret q, s') -> fst (fst q) = None -> StreamFacts.rest s' = [] \/ too_many (snd (fst q)).
Proof.
  intros He Hl H Hn. rewrite warc_parse_eq in H. pose proof (find_end f st line o []) as X.
  destruct (find_version f st line o []) as [[fd|e|] s1]; cbn [andthen] in H; try discriminate. destruct fd as [p|g o' e]; cbn [warc_rest] in H.
  - injection H as <- <-. exact (proj2 (X p s1 He Hl eq_refl)).
  - exfalso. cbn zeta in H. destruct (in_list _ _); [|discriminate]. destruct (readline0 s1 None) as [[l|ex|] s2]; cbn [andthen] in H; try discriminate.
    destruct (header_loop _ _ _ _ _ _) as [[[[hs e3] cl]|ex|] s3]; cbn [andthen] in H; try discriminate. injection H as <- <-. discriminate.
Qed.
Lemma arc_blank_end f : forall st line s', s_eoc st = None -> (line = [] -> StreamFacts.rest st = []) ->
  arc_blank_loop f st line = (Ret None, s') -> StreamFacts.rest s' = [].
Proof.
  induction f as [|f IH]; intros st line s' He Hl H; [discriminate|]. cbn [arc_blank_loop] in H. destruct (rstrip line); [|discriminate]. destruct line as [|c l].
  - injection H as <-. apply Hl. reflexivity.
  - rewrite readline_none in H by exact He. apply IH in H; [exact H|exact He|]. intro Z. apply (proj1 (take_line_nil _)) in Z. rewrite rest_adv, Z. apply skipn_nil.
Qed.
Lemma arc_end put f a st line o q s' : s_parser st = put a -> s_eoc st = None -> (line = [] -> StreamFacts.rest st = []) ->
  stored put (arc_parse_fuel f a st o (Some line)) = (Ret q, s') -> fst (fst q) = None -> StreamFacts.rest s' = [].
Proof.
  intros Hp He Hl H Hn. apply (eq_trans (eq_sym (arc_parse_eq put f a st o line Hp))) in H. pose proof (arc_blank_end f st line) as X.
  destruct (arc_blank_loop f st line) as [[[l|]|e|] s1]; cbn [andthen arc_rest] in H; try discriminate.
  - exfalso. destruct (startswith FILEDESC l).
    + destruct (readline0 s1 None) as [[v|ex|] s2]; cbn [andthen] in H; try discriminate. destruct (readline0 s2 None) as [[n|ex|] s3]; cbn [andthen] in H; try discriminate.
      cbn zeta in H. destruct (split_ws (strip v)); [discriminate|]. destruct (arc_header_list _ l) as [hs|ex|]; cbn [andthen] in H; try discriminate.
      destruct (arc_content_headers hs None []) as [[n0|] e]; [|discriminate]. injection H as <- <-. discriminate.
    + destruct (a_headers a); [discriminate|]. destruct (arc_header_list _ l) as [hs|ex|]; cbn [andthen] in H; try discriminate.
      destruct (arc_content_headers hs None []) as [cl e]. injection H as <- <-. discriminate.
  - injection H as <- <-. exact (X s1 He Hl eq_refl).
Qed.
Lemma stored_q put (x : outcome parsed * arcstate * stream) q s : stored put x = (Ret q, s) -> exists a s0, x = (Ret q, a, s0) /\ s = set_parser s0 (put a).
Proof. destruct x as [[o a] s0]. cbn [stored]. intro H. injection H as -> <-. eauto. Qed.
Lemma mixed_end f : forall a st line o q s', s_parser st = PMixed a -> s_eoc st = None -> (line = [] -> StreamFacts.rest st = []) ->
  stored PMixed (mixed_loop f a st o line) = (Ret q, s') -> fst (fst q) = None -> StreamFacts.rest s' = [] \/ too_many (snd (fst q)).
Proof.
  induction f as [|f IH]; intros a st line o q s' Hp He Hl H Hn; cbn [mixed_loop] in H; [discriminate|]. destruct line as [|c l].
  - cbn [stored] in H. injection H as <- <-. left. apply Hl. reflexivity.
  - destruct (startswith WARC_PREFIX (c :: l)).
    + pose proof (warc_end (file_fuel (s_fh st)) st (c :: l) o) as X. change (warc_parse_fuel (file_fuel (s_fh st)) st o (Some (c :: l))) with (warc_parse st o (Some (c :: l))) in X.
      unfold bytes in *. destruct (warc_parse st o (Some (c :: l))) as [[q'|e|] s1]; cbn [stored] in H; try discriminate. injection H as -> <-. exact (X q s1 He Hl eq_refl Hn).
    + destruct (negb _).
      * left. exact (arc_end PMixed (file_fuel (s_fh st)) a st (c :: l) o q s' Hp He Hl H Hn).
      * rewrite readline_none in H by exact He. eapply IH in H; [exact H|exact Hp|exact He| |exact Hn]. intro Z. apply (proj1 (take_line_nil _)) in Z. rewrite rest_adv, Z. apply skipn_nil.
Qed.
Lemma run_parser_end st o line q s' : s_eoc st = None -> (line = [] -> StreamFacts.rest st = []) -> run_parser st o line = (Ret q, s') -> fst (fst q) = None ->
  StreamFacts.rest s' = [] \/ too_many (snd (fst q)).
Proof.
  intros He Hl H Hn. unfold run_parser in H. destruct (s_parser st) as [|a|a] eqn:E.
  - exact (warc_end (file_fuel (s_fh st)) st line o q s' He Hl H Hn).
  - left. exact (arc_end PArc (file_fuel (s_fh st)) a st line o q s' E He Hl H Hn).
  - exact (mixed_end (file_fuel (s_fh st)) a st line o q s' E He Hl H Hn).
Qed.
Lemma lines_of_nonempty s : Forall (fun l : bytes => l <> []) (lines_of s).
Proof.
  induction s as [|c t IH]; cbn [lines_of]; [constructor|]. destruct (c =? 10)%N; [constructor; [discriminate|exact IH]|].
  destruct (lines_of t); constructor; try discriminate; inversion IH; assumption.
Qed.
Lemma first_text_end f : first_text (lines_of (f_rest f)) = [] -> StreamFacts.rest (new_stream SPlain (f_advance f (blank_lines (lines_of (f_rest f)) + List.length (first_text (lines_of (f_rest f))))) PWarc) = [].
Proof.
  intro H. rewrite H. cbn [List.length]. rewrite Nat.add_0_r. unfold StreamFacts.rest, f_rest at 1. cbn.
  assert (G : forall ls, Forall (fun l : bytes => l <> []) ls -> first_text ls = [] -> blank_lines ls = List.length (concat ls)).
  { induction ls as [|l ls IH]; intros Hn Hf; [reflexivity|]. inversion Hn as [|? ? H1 H2]; subst. cbn [first_text] in Hf. cbn [blank_lines concat]. destruct (crlf_only l); [|contradiction].
    rewrite app_length, IH by assumption. reflexivity. }
  rewrite (G _ (lines_of_nonempty _) H), concat_lines. apply skipn_all2. unfold f_rest. rewrite skipn_length. lia.
Qed.
Lemma read_record_end st b o errs s' : read_record st b = (Ret (o, None, errs), s') -> StreamFacts.rest s' = [] \/ too_many errs.
Proof.
  rewrite read_record_eq. destruct (skip0 st) as [[u|e|] s1]; cbn [andthen]; try discriminate. unfold skipped0. rewrite skip_blank_eq. cbn [andthen].
  set (t := set_eoc s1 None). set (ls := lines_of (f_rest (s_fh t))). set (n := blank_lines ls). set (l := first_text ls). set (t2 := set_fh t _).
  match goal with |- context [run_parser t2 ?oo l] => set (off := oo) end.
  assert (Hl : l = [] -> StreamFacts.rest t2 = []) by (intro Z; exact (first_text_end (s_fh t) Z)).
  pose proof (run_parser_end t2 off l) as X. destruct (run_parser t2 off l) as [[[[r er] o']|e|] s4]; cbn [andthen finish]; try discriminate.
  specialize (X (r, er, o') s4 eq_refl Hl eq_refl). cbn [fst snd] in X. destruct (s_kind st); try discriminate; intro H; injection H as _ -> -> <-; apply X; reflexivity.
Qed.
Lemma watching_not_false plan s st it s' st' : watching plan s st it <> (Ret false, s', st').
Proof.
  unfold watching. generalize (s ++ [(Handed it, f_pos (s_fh st))]). generalize (plan (map fst s) it). intro cs. revert st. induction cs as [|c cs IH]; intros st l H; cbn [calls] in H; [discriminate|].
  destruct (run_cop st c) as [[d|e|] s1]; try discriminate. exact (IH _ _ H).
Qed.
Lemma watching_grows plan s st it : exists more, snd (fst (watching plan s st it)) = s ++ (Handed it, f_pos (s_fh st)) :: more.
Proof.
  unfold watching. assert (G : forall cs l t, exists m, snd (fst (calls cs l t)) = l ++ m).
  { induction cs as [|c cs IH]; intros l t; cbn [calls]; [exists []; rewrite app_nil_r; reflexivity|].
    destruct (run_cop t c) as [[d|e|] s1]; cbn [fst snd]; try (exists []; rewrite app_nil_r; reflexivity). destruct (IH (l ++ [(Got d, f_pos (s_fh s1))]) s1) as [m E]. rewrite E, <- app_assoc. eauto. }
  destruct (G (plan (map fst s) it) (s ++ [(Handed it, f_pos (s_fh st))]) st) as [m E]. rewrite E, <- app_assoc. exists m. reflexivity.
Qed.
Lemma loop_end plan off : forall f s st s' st', read_loop f None off (watching plan) s st = (Ret tt, s', st') ->
  exists before o errs after st1, s' = before ++ (Handed (o, None, errs), f_pos (s_fh st1)) :: after /\ (StreamFacts.rest st1 = [] \/ too_many errs) /\ later st1 st' /\ later st st1.
Proof.
  induction f as [|f IH]; intros s st s' st' H; [discriminate|]. cbn [read_loop] in H.
  pose proof (proj1 (read_record_later st off)) as L1. pose proof (read_record_end st off) as Q. destruct (read_record st off) as [[it|e|] s1]; try discriminate. cbn [snd] in L1.
  pose proof (watching_later plan s s1 it) as L2. pose proof (watching_not_false plan s s1 it) as Nf. destruct (watching_grows plan s s1 it) as [more G].
  destruct (watching plan s s1 it) as [[[[|]|e|] s2] st2]; cbn [fst snd] in *; try discriminate.
  - destruct it as [[o [r|]] errs]; cbn [fst snd] in H.
    + destruct (IH _ _ _ _ H) as (bf & o' & er & af & t & E & C & L & L'). exists bf, o', er, af, t. split; [exact E|]. split; [exact C|]. split; [exact L|].
      eapply later_trans; [exact L1|]. eapply later_trans; [exact L2|exact L'].
    + injection H as <- <-. exists s, o, errs, more, s1. split; [exact G|]. split; [exact (Q _ _ _ eq_refl)|]. split; [exact L2|exact L1].
  - contradiction (Nf s2 st2 eq_refl).
Qed.
(** When a loop over such an archive ends normally nevertheless, it is because of junk: it was
    handed an item that reports too many lines that are not part of a record. *)
Theorem C69_cut_is_noticed : forall (text : bytes) (e : exn) (budget : nat) (plan : list event -> item -> list cop)
    (offsets strict : bool) (kind : skind) (p : parser) (seen : list event) st,
  List.length text + 3 <= budget ->
  x_for_read_records cut_ops budget None offsets (x_watching cut_ops plan) [] (x_new kind (mkcut (mkfile text 0 strict) e) p) = (Ret tt, seen, st) ->
  exists before o errs after, seen = before ++ Handed (o, None, errs ++ [ErrTooMany]) :: after.
Proof.
  intros P e budget plan off strict kind p seen st Hb H. set (X := [0%N]).
  assert (Hb2 : file_fuel (mkfile (P ++ X) 0 strict) <= budget) by (unfold file_fuel; cbn [f_data]; rewrite app_length; cbn; lia).
  pose proof (C69_cut_archive P X e budget plan None off strict kind p ltac:(discriminate) Hb2) as A.
  rewrite H in A. set (y := new_stream kind (mkfile (P ++ X) 0 strict) p) in *. unfold for_read_records in A. pose proof (loop_end plan off (file_fuel (s_fh y)) [] y) as Q.
  destruct (read_loop (file_fuel (s_fh y)) None off (watching plan) [] y) as [[o0 h0] y1]. destruct A as (A1 & A2 & A3).
  destruct o0 as [[]|e'|].
  - specialize (A2 ltac:(discriminate)). destruct (Nat.leb_spec (f_pos (s_fh y1)) (List.length P)) as [Hp|Hp]; [|discriminate].
    destruct (Q h0 y1 eq_refl) as (bf & o & errs & af & t & E & C & L & L').
    assert (Ht : f_pos (s_fh t) <= List.length P) by (destruct L as (_ & _ & _ & L & _); unfold pos, f_tell in L; lia).
    destruct C as [C|[l C]].
    + exfalso. unfold StreamFacts.rest, f_rest in C. destruct L' as (E1 & _). rewrite E1 in C. cbn in C.
      assert (List.length (skipn (f_pos (s_fh t)) (P ++ X)) = 0) by (rewrite C; reflexivity). rewrite skipn_length, app_length in H0. cbn in H0. lia.
    + subst errs h0 seen. rewrite filter_app, map_app. cbn [filter snd]. apply Nat.leb_le in Ht. rewrite Ht. cbn [map fst]. eauto.
  - specialize (A2 ltac:(discriminate)). destruct (Nat.leb _ _); discriminate.
  - destruct (A3 eq_refl); discriminate.
Qed.

(** ** A well-formed archive cut anywhere *)
(** what there is to see of the archive [a] that starts at byte [start], by a caller that reads
    each content as a whole, and the number of bytes needed for it *)
Definition read_all_of (seen : list event) (it : item) : list cop := match snd (fst it) with Some _ => [OpRead None] | None => [] end.
Fixpoint needs (start : nat) (a : archive) : list (event * nat) :=
  match a with
  | [] => [(Handed (None, None, []), start)]
  | (w, s) :: t =>
      (Handed (None, Some (mkrec (RWarc (w_version w)) (w_headers w) [] None CF_stream true), []), start + List.length (head_text (w_version w) (w_headers w))) ::
      (Got (w_body w), start + List.length (wrec_text w)) ::
      needs (start + List.length (wrec_text w) + List.length s) t
  end.
Lemma watched_archive b a : forall fuel s st start, archive_ok a -> List.length a < fuel ->
  at_text st start (archive_text a) -> s_parser st = PWarc -> s_kind st = SGzipRecord ->
  exists st', read_loop fuel None b (watching read_all_of) s st = (Ret tt, s ++ needs start a, st') /\ f_pos (s_fh st') = start + List.length (archive_text a).
Proof.
  induction a as [|[w sep] a IH]; intros fuel s st start Hok Hf Hat Hp Hk.
  - destruct fuel as [|fuel]; [cbn in Hf; lia|]. cbn [read_loop].
    destruct (at_text_fresh _ _ _ Hat) as (st0 & Heq & He & Hr & Hpos & Hk0 & Hp0 & Hf0). rewrite Heq, (read_end st0 b He); [|congruence|congruence|exact Hr].
    rewrite Hk0, Hk. cbn [item_offset watching]. unfold watching, read_all_of. cbn [fst snd calls]. eexists. split; [|].
    + cbn [needs]. f_equal. f_equal. f_equal. f_equal. f_equal. exact Hpos.
    + cbn [archive_text map concat List.length]. rewrite Nat.add_0_r. exact Hpos.
  - destruct fuel as [|fuel]; [cbn in Hf; lia|]. cbn [read_loop needs]. inversion Hok as [|? ? [Hw Hsep] Hok']; subst. cbn [fst snd] in Hw, Hsep.
    destruct (read_first st start w sep a b Hat Hp ltac:(congruence) Hw) as (st1 & E & Hi & Hk1 & Hp1 & Hf1 & Hpos1). rewrite E.
    rewrite Hk. cbn [item_offset]. unfold watching at 1, read_all_of at 1. cbn [fst snd calls run_cop]. rewrite (read_rest st1 _ _ Hi). cbn [fst snd].
    set (st2 := moved st1 (List.length (w_body w)) 0).
    assert (Hat2 : at_text st2 (start + List.length (wrec_text w) + List.length sep) (archive_text a)).
    { apply (at_text_next st1 (w_body w) st2 sep); [exact Hi| |exact Hsep|unfold bytes in *; lia]. exists (List.length (w_body w)). split; [lia|]. rewrite Nat.sub_diag. reflexivity. }
    assert (P1 : f_pos (s_fh st1) = start + List.length (head_text (w_version w) (w_headers w))).
    { unfold pos, f_tell in Hpos1. unfold wrec_text in Hpos1. rewrite app_length in Hpos1. unfold bytes in *. lia. }
    assert (P2 : f_pos (s_fh st2) = start + List.length (wrec_text w)).
    { unfold st2, pos, f_tell in *. cbn. exact Hpos1. }
    destruct (IH fuel ((s ++ [(Handed (None, Some (handed w), []), f_pos (s_fh st1))]) ++ [(Got (w_body w), f_pos (s_fh st2))]) st2 _ Hok' ltac:(cbn in Hf; lia) Hat2 Hp1 (eq_trans Hk1 Hk)) as (st' & E' & P').
    exists st'. split.
    + etransitivity; [exact E'|]. f_equal. f_equal. rewrite <- !app_assoc. cbn [app]. rewrite P1, P2. reflexivity.
    + rewrite P', archive_text_cons, !app_length. unfold bytes in *. lia.
Qed.
(** A well-formed WARC file was compressed and only the first [k] bytes of its contents can be
    decompressed.  A caller that reads the records one by one and each content as a whole is
    handed every record whose head lies in these [k] bytes, and its content when it does
    too, and then gets the exception. *)
Theorem C69_cut_well_formed : forall (a : archive) (k : nat) (e : exn) (budget : nat) (offsets : bool),
  archive_ok a -> k < List.length (archive_text a) -> List.length (archive_text a) + 2 <= budget ->
  let '(result, seen, _) := x_for_read_records cut_ops budget None offsets (x_watching cut_ops read_all_of) []
                              (open_cut PWarc (firstn k (archive_text a)) e) in
  result = Raise e /\ seen = map fst (filter (fun ev => Nat.leb (snd ev) k) (needs 0 a)).
Proof.
  intros a k e budget off Hok Hk Hb. set (P := firstn k (archive_text a)). set (X := skipn k (archive_text a)).
  assert (E : archive_text a = P ++ X) by (symmetry; apply firstn_skipn).
  assert (HX : X <> []) by (intro Z; assert (List.length X = 0) by (rewrite Z; reflexivity); unfold X in *; rewrite skipn_length in *; lia).
  assert (Hl : List.length P = k) by (unfold P; rewrite firstn_length; lia).
  assert (Hb2 : file_fuel (mkfile (P ++ X) 0 true) <= budget) by (unfold file_fuel; cbn [f_data]; rewrite <- E; lia).
  pose proof (C69_cut_archive P X e budget read_all_of None off true SGzipRecord PWarc HX Hb2) as A. unfold open_cut.
  destruct (x_for_read_records cut_ops budget None off (x_watching cut_ops read_all_of) [] (x_new SGzipRecord (mkcut (mkfile P 0 true) e) PWarc)) as [[o h] x1].
  set (y := new_stream SGzipRecord (mkfile (P ++ X) 0 true) PWarc) in *.
  assert (Hat : at_text y 0 (archive_text a)).
  { left. split; [reflexivity|]. exists []. split; [rewrite E; reflexivity|]. split; [|reflexivity]. split; [intros c []|left; reflexivity]. }
  destruct (watched_archive off a (file_fuel (s_fh y)) [] y 0 Hok) as (y1 & Ey & Py); [|exact Hat|reflexivity|reflexivity|].
  { unfold file_fuel. cbn [s_fh y new_stream f_data]. pose proof (archive_text_records a). unfold y. cbn. rewrite <- E. unfold bytes in *. lia. }
  unfold for_read_records in A. rewrite Ey in A. cbn [app] in A. destruct A as (A1 & A2 & _). rewrite Hl in *. split; [|exact A1].
  rewrite A2 by discriminate. rewrite Py. destruct (Nat.leb_spec (0 + List.length (archive_text a)) k) as [L|L]; [lia|reflexivity].
Qed.

(** ** Copying records *)
Lemma find_none f : forall st line o errs q, fst (find_version f st line o errs) = Ret (FNone q) -> fst (fst q) = None.
Proof.
  induction f as [|f IH]; intros st line o errs q; cbn [find_version]; [discriminate|]. destruct line as [|c l].
  - cbn [fst]. intro H. injection H as <-. reflexivity.
  - destruct (re_match version_rx (c :: l)); [discriminate|]. cbn zeta. destruct (stream_readline st None) as [l' s'].
    destruct (re_test nl_rx (c :: l)); [apply IH|]. destruct (Nat.ltb _ _); [|apply IH]. cbn [fst]. intro H. injection H as <-. reflexivity.
Qed.
(** records that were read from the archive have their content there *)
Definition from_archive (r : record) : Prop := r_cf r = CF_stream /\ r_valid r = true /\ r_content r = None.
Definition from_archive_q (x : outcome parsed * stream) : Prop := forall r e o, fst x = Ret (Some r, e, o) -> from_archive r.
Lemma warc_from_archive f st o line : from_archive_q (warc_parse_fuel f st o (Some line)).
Proof.
  intros r e0 o0. rewrite warc_parse_eq. pose proof (find_none f) as N. specialize (N st line o []).
  destruct (find_version f st line o []) as [[fd|e|] s1]; cbn [andthen fst] in *; try discriminate. destruct fd as [p|g o' e]; cbn [warc_rest fst].
  - intro H. injection H as ->. specialize (N _ eq_refl). discriminate.
  - cbn zeta. destruct (in_list _ _); [|discriminate]. destruct (readline0 s1 None) as [[l|ex|] s2]; cbn [andthen]; try discriminate.
    destruct (header_loop _ _ _ _ _ _) as [[[[hs e3] cl]|ex|] s3]; cbn [andthen fst]; try discriminate. intro H. injection H as <- _ _. repeat split; reflexivity.
Qed.
Lemma arc_from_archive put f a st o line : s_parser st = put a -> from_archive_q (stored put (arc_parse_fuel f a st o (Some line))).
Proof.
  intros Hp r e0 o0. intro H. assert (Q := arc_parse_eq put f a st o line Hp). unfold bytes in *. rewrite Q in H. clear Q. revert H.
  destruct (arc_blank_loop f st line) as [[[l|]|e|] s1]; cbn [andthen arc_rest fst]; try discriminate.
  destruct (startswith FILEDESC l).
  - destruct (readline0 s1 None) as [[v|ex|] s2]; cbn [andthen]; try discriminate. destruct (readline0 s2 None) as [[n|ex|] s3]; cbn [andthen]; try discriminate.
    cbn zeta. destruct (split_ws (strip v)); [discriminate|]. destruct (arc_header_list _ l) as [hs|ex|]; cbn [andthen]; try discriminate.
    destruct (arc_content_headers hs None []) as [[n0|] e]; [|discriminate]. intro H. injection H as <- _ _. repeat split; reflexivity.
  - destruct (a_headers a); [discriminate|]. destruct (arc_header_list _ l) as [hs|ex|]; cbn [andthen]; try discriminate.
    destruct (arc_content_headers hs None []) as [cl e]. intro H. injection H as <- _ _. repeat split; reflexivity.
Qed.
Lemma mixed_from_archive f : forall a st o line, s_parser st = PMixed a -> from_archive_q (stored PMixed (mixed_loop f a st o line)).
Proof.
  induction f as [|f IH]; intros a st o line Hp r e0 o0; cbn [mixed_loop]; [discriminate|]. destruct line as [|c l]; [discriminate|].
  destruct (startswith WARC_PREFIX (c :: l)).
  - pose proof (warc_from_archive (file_fuel (s_fh st)) st o (c :: l)) as X. change (warc_parse_fuel (file_fuel (s_fh st)) st o (Some (c :: l))) with (warc_parse st o (Some (c :: l))) in X.
    unfold bytes in *. destruct (warc_parse st o (Some (c :: l))) as [z s1]. exact (X r e0 o0).
  - destruct (negb _); [exact (arc_from_archive PMixed (file_fuel (s_fh st)) a st o (c :: l) Hp r e0 o0)|].
    rewrite readline_eq. apply IH. exact Hp.
Qed.
Lemma read_from_archive st b o r e : fst (read_record st b) = Ret (o, Some r, e) -> from_archive r.
Proof.
  rewrite read_record_eq. destruct (skip0 st) as [[u|ex|] s1]; cbn [andthen]; try discriminate. destruct (skipped0 _) as [[[p l]|ex|] s2]; cbn [andthen]; try discriminate.
  match goal with |- context [run_parser s2 ?oo l] => set (off := oo) end.
  assert (X : from_archive_q (run_parser s2 off l)).
  { unfold run_parser. destruct (s_parser s2) as [|a|a] eqn:E.
    - exact (warc_from_archive (file_fuel (s_fh s2)) s2 off l).
    - exact (arc_from_archive PArc (file_fuel (s_fh s2)) a s2 off l E).
    - exact (mixed_from_archive (file_fuel (s_fh s2)) a s2 off l E). }
  destruct (run_parser s2 off l) as [[[[r' er] o']|ex|] s4]; cbn [andthen finish]; try discriminate.
  destruct (s_kind st); cbn [fst]; try discriminate; intro H; injection H as _ -> _; exact (X _ _ _ eq_refl).
Qed.
Lemma copy_fuel f1 : forall f2 st out, List.length (StreamFacts.rest st) < f1 -> List.length (StreamFacts.rest st) < f2 ->
  copy_loop f1 CF_stream st out = copy_loop f2 CF_stream st out.
Proof.
  induction f1 as [|f1 IH]; intros f2 st out H1 H2; [lia|]. destruct f2 as [|f2]; [lia|]. cbn [copy_loop cf_read].
  destruct (stream_read st _) as [[[|x d]|e|] s1] eqn:E; try reflexivity. pose proof (read_some_less _ _ _ _ E ltac:(discriminate)). apply IH; lia.
Qed.
Definition pcopy (f : nat) (st : stream) (out : bytes) : outcome unit * bytes * stream :=
  let '(o, _, st', d) := copy_loop f CF_stream st out in (o, d, st').
Definition phead (v : bytes) (r : record) : bytes := v ++ CRLF ++ write_headers true CRLF (r_headers r) ++ CRLF.
Definition pemit (f : nat) (out : bytes) (st : stream) (r : record) : outcome unit * bytes * stream :=
  match r_class r with
  | RWarc v => match pcopy f st (out ++ phead v r) with
               | (Ret _, out', st') => (Ret tt, out' ++ CRLF ++ CRLF, st')
               | x => x
               end
  | _ => (Ret tt, out, st)
  end.
Lemma emit_eq f out st r : from_archive r -> List.length (StreamFacts.rest st) < f -> emit None out st r = pemit f out st r.
Proof.
  intros (Hc & Hv & _) Hf. unfold emit, pemit, write_to, rec_write, pcopy. rewrite Hc, Hv. unfold has_cf. rewrite Hc. cbn [andb negb].
  destruct (r_class r) as [v| |]; [|rewrite app_nil_r; reflexivity ..]. unfold warc_write, has_cf. rewrite Hc. cbn [cf_fuel].
  set (h := _ ++ CRLF : bytes) at 1. replace (phead v r) with h by (unfold h, phead; rewrite <- !app_assoc; reflexivity).
  rewrite (copy_fuel (file_fuel (s_fh st)) f st h (rest_fuel st) Hf).
  destruct (PropsSink.copy_loop_out f CF_stream st h) as (d & E1 & E2). rewrite (E2 (out ++ h)). destruct (copy_loop f CF_stream st h) as [[[[u|e|] c'] s1] o1]; cbn [fst snd] in *; subst o1; rewrite <- !app_assoc; reflexivity.
Qed.
Lemma pcopy_later f st out : later st (snd (pcopy f st out)).
Proof. unfold pcopy. pose proof (copy_later f CF_stream st out) as L. destruct (copy_loop f CF_stream st out) as [[[o c] s] d]. exact L. Qed.
Lemma pcopy_out f st out : exists more, snd (fst (pcopy f st out)) = out ++ more.
Proof. unfold pcopy. destruct (PropsSink.copy_loop_out f CF_stream st out) as (d & E & _). destruct (copy_loop f CF_stream st out) as [[[o c] s] dd]. exists d. exact E. Qed.
Definition Pre (s s' : bytes) : Prop := exists more, s' = s ++ more.
Lemma Pre_refl s : Pre s s. Proof. exists []. rewrite app_nil_r. reflexivity. Qed.
Lemma Pre_trans a b c : Pre a b -> Pre b c -> Pre a c.
Proof. intros [x ->] [y ->]. exists (x ++ y). rewrite app_assoc. reflexivity. Qed.
Lemma emit_later : forall s st it, from_archive it -> later st (snd (emit None s st it)).
Proof.
  intros s st it Hg. rewrite (emit_eq _ s st it Hg (rest_fuel st)). unfold pemit. destruct (r_class it); [|apply later_refl ..].
  match goal with |- context [pcopy ?f st ?h] => pose proof (pcopy_later f st h) as L; destruct (pcopy f st h) as [[[u|e|] o] s1]; exact L end.
Qed.
Lemma emit_pre : forall s st it, from_archive it -> Pre s (snd (fst (emit None s st it))).
Proof.
  intros s st it Hg. rewrite (emit_eq _ s st it Hg (rest_fuel st)). unfold pemit. destruct (r_class it); [|apply Pre_refl ..].
  match goal with |- context [pcopy ?f st (s ++ ?h)] => destruct (pcopy_out f st (s ++ h)) as [m E]; destruct (pcopy f st (s ++ h)) as [[[u|e|] o] s1] end;
    cbn [fst snd] in *; subst o; unfold Pre; rewrite <- ?app_assoc; eauto.
Qed.
Lemma iter_fuel {S} (body : S -> stream -> record -> outcome unit * S * stream) (good : record -> Prop) :
  (forall st b o r e, fst (read_record st b) = Ret (o, Some r, e) -> good r) ->
  (forall s st r, good r -> later st (snd (body s st r))) ->
  forall f1 f2 s st, List.length (StreamFacts.rest st) < f1 -> List.length (StreamFacts.rest st) < f2 -> iter_loop f1 body s st = iter_loop f2 body s st.
Proof.
  intros Hg Hb. induction f1 as [|f1 IH]; intros f2 s st H1 H2; [lia|]. destruct f2 as [|f2]; [lia|]. cbn [iter_loop].
  pose proof (read_record_later st false) as [L P]. pose proof (Hg st false) as G. destruct (read_record st false) as [[[[o [r|]] errs]|e|] s1] eqn:Er; try reflexivity. cbn [fst snd] in *.
  specialize (P _ _ _ eq_refl). specialize (G _ _ _ eq_refl). pose proof (Hb s s1 r G) as Lb. destruct (body s s1 r) as [[[u|e|] s'] s2]; try reflexivity. cbn [snd] in Lb. pose proof (later_rest _ _ Lb).
  apply IH; lia.
Qed.
Section Copy.
  Context {F : Type} (ops : fops F) (budget : nat) (R : F -> file -> Prop) (fault : exn -> Prop) (lost : file -> Prop).
  Hypothesis Hh : honest ops R fault lost.
  Hypothesis Hlost : forall f f', lost f -> f_data f' = f_data f -> f_strict f' = f_strict f -> f_pos f <= f_pos f' -> lost f'.
  Notation Agl := (agl R fault lost eq Pre).
  Lemma ag_copy : forall f x y out, Rst R x y -> Agl (x_copy_loop ops f x out) (pcopy f y out).
  Proof.
    induction f as [|f IH]; intros x y out H; [left; split; [reflexivity|]; split; [reflexivity|]; intros _; exact H|].
    cbn [x_copy_loop]. unfold pcopy. cbn [copy_loop cf_read]. change (Z.of_nat (Z.to_nat CHUNK_SIZE)) with CHUNK_SIZE.
    destruct (ag_read ops R fault lost Hh Hlost x y (Some CHUNK_SIZE) H) as [[E S]|(e & E & He & L)]; destruct (x_read ops x (Some CHUNK_SIZE)) as [ox x1]; cbn [fst snd] in E; subst ox.
    - cbn [fst snd] in S. destruct (stream_read y (Some CHUNK_SIZE)) as [[[|c d]|e|] y1]; cbn [fst snd] in *.
      + left. split; [reflexivity|]. split; [reflexivity|]. intros _. apply S. discriminate.
      + specialize (IH x1 y1 (out ++ c :: d) (S ltac:(discriminate))). unfold pcopy in IH. exact IH.
      + left. split; [reflexivity|]. split; [reflexivity|]. intros _. apply S. discriminate.
      + left. split; [reflexivity|]. split; [reflexivity|]. intro C. cbn [fst snd] in *. contradiction C. reflexivity.
    - right. exists e, out. cbn [fst snd]. split; [reflexivity|]. split; [exact He|]. split; [reflexivity|].
      destruct (stream_read y (Some CHUNK_SIZE)) as [[[|c d]|e'|] y1]; cbn [fst snd] in *.
      + split; [apply Pre_refl|]. intros _. apply L. discriminate.
      + specialize (L ltac:(discriminate)). destruct (pcopy_out f y1 (out ++ c :: d)) as [m Em]. pose proof (pcopy_later f y1 (out ++ c :: d)) as Lc. unfold pcopy in *.
        destruct (copy_loop f CF_stream y1 (out ++ c :: d)) as [[[o2 c2] s2] d2]. cbn [fst snd] in *. subst d2. split; [rewrite <- app_assoc; eexists; reflexivity|].
        intros _. exact (lost_later lost Hlost _ _ L Lc).
      + split; [apply Pre_refl|]. intros _. apply L. discriminate.
      + split; [apply Pre_refl|]. intro C. contradiction C. reflexivity.
  Qed.
  Lemma ag_emit : forall s1 s2 x y it, from_archive it -> s1 = s2 -> Rst R x y -> fits budget y -> Agl (x_emit ops budget s1 x it) (emit None s2 y it).
  Proof.
    intros s1 s2 x y it Hg <- H Hf. rewrite (emit_eq budget s1 y it Hg); [|unfold fits in Hf; unfold bytes in *; lia]. unfold x_emit, pemit.
    destruct (r_class it) as [v| |]; try (left; split; [reflexivity|]; split; [reflexivity|]; intros _; exact H).
    change (v ++ CRLF ++ write_headers true CRLF (r_headers it) ++ CRLF) with (phead v it). cbv zeta.
    destruct (ag_copy budget x y (s1 ++ phead v it) H) as [(E & R2 & S2)|(e & s & E & He & R2 & X2 & L)]; destruct (x_copy_loop ops budget x (s1 ++ phead v it)) as [[ob t1] x2]; cbn [fst snd] in E; subst ob.
    - destruct (pcopy budget y (s1 ++ phead v it)) as [[[u|e|] t2] y2]; cbn [fst snd] in *; subst t2; left; (split; [reflexivity|]); (split; [reflexivity|]); intro C; cbn [fst snd] in *; apply S2; first [discriminate|intro; apply C; reflexivity].
    - cbn [fst snd] in *. subst s. right. exists e, t1. cbn [fst snd]. split; [reflexivity|]. split; [exact He|]. split; [reflexivity|].
      destruct (pcopy budget y (s1 ++ phead v it)) as [[[u|e'|] t2] y2]; cbn [fst snd] in *.
      + split; [eapply Pre_trans; [exact X2|eexists; reflexivity]|]. intros _. apply L. discriminate.
      + split; [exact X2|]. intros _. apply L. discriminate.
      + split; [exact X2|]. intro C. contradiction C. reflexivity.
  Qed.
End Copy.
Lemma iter_end f : forall out st out' st', iter_loop f (emit None) out st = (Ret tt, out', st') -> StreamFacts.rest st' = [] /\ later st st'.
Proof.
  induction f as [|f IH]; intros out st out' st' H; [discriminate|]. cbn [iter_loop] in H.
  pose proof (proj1 (read_record_later st false)) as L. pose proof (read_record_end st false) as Q. pose proof (read_from_archive st false) as G.
  destruct (read_record st false) as [[[[o [r|]] errs]|e|] s1]; try discriminate; cbn [fst snd] in *.
  - pose proof (emit_later out s1 r (G _ _ _ eq_refl)) as L2. destruct (emit None out s1 r) as [[[u|e|] s'] s2]; try discriminate. cbn [snd] in L2.
    destruct (IH _ _ _ _ H) as [E L3]. split; [exact E|]. eapply later_trans; [exact L|]. eapply later_trans; eassumption.
  - destruct errs as [|e0 errs]; [|discriminate]. injection H as <- <-. destruct (Q _ _ _ eq_refl) as [Q1|[l Q1]]; [split; assumption|]. destruct l; discriminate.
Qed.
(** Records are copied from such an archive to a file (as warc2warc does): what is written is
    what would be written without the failure, or the beginning of it, and then the exception
    reaches the caller. *)
Theorem C69_copying : forall (F : Type) (ops : fops F) (same_file : F -> file -> Prop) (failure : exn -> Prop) (unreadable : file -> Prop)
    (budget : nat) (kind : skind) (p : parser) (bad : F) (good : file) (out : bytes),
  honest ops same_file failure unreadable ->
  (forall f f', unreadable f -> f_data f' = f_data f -> f_strict f' = f_strict f -> f_pos f <= f_pos f' -> unreadable f') ->
  same_file bad good -> file_fuel good <= budget ->
  let '(result, written, _) := x_for_records ops budget (x_emit ops budget) out (x_new kind bad p) in
  let '(result0, written0, st0) := for_records (emit None) out (new_stream kind good p) in
  (result = result0 /\ written = written0) \/
  (exists e more, result = Raise e /\ failure e /\ written0 = written ++ more /\ (result0 <> Diverge -> unreadable (s_fh st0))).
Proof.
  intros F ops R0 fault lost0 budget kind p bad good out Hh0 Hl0 H Hb.
  set (x := x_new kind bad p). set (y := new_stream kind good p).
  assert (Hr : List.length (StreamFacts.rest y) + 2 <= file_fuel good) by (exact (rest_len y)).
  assert (HR : Rst R0 x y) by (repeat split; exact H).
  assert (Hf : fits budget y) by (unfold fits; lia).
  assert (E : for_records (emit None) out y = iter_loop budget (emit None) out y).
  { unfold for_records. apply (iter_fuel _ from_archive read_from_archive emit_later); [exact (rest_fuel y)|unfold bytes in *; lia]. }
  rewrite E. unfold x_for_records.
  pose proof (ag_iter ops budget R0 fault lost0 Hh0 Hl0 eq Pre Pre_refl Pre_trans (x_emit ops budget) (emit None) from_archive read_from_archive
     (ag_emit ops budget R0 fault lost0 Hh0 Hl0) emit_later (fun s st it G _ => emit_pre s st it G) budget out out x y eq_refl HR Hf) as A.
  destruct (x_iter_loop ops budget budget (x_emit ops budget) out x) as [[o h] x1].
  destruct (iter_loop budget (emit None) out y) as [[o0 h0] y1].
  destruct A as [(A1 & A2 & _)|(e & s & A1 & A2 & A3 & (more & A4) & A6)]; cbn [fst snd] in *.
  - left. split; assumption.
  - right. exists e, more. subst s. repeat split; assumption.
Qed.
Theorem C69_copying_a_cut_archive : forall (text rest : bytes) (e : exn) (budget : nat) (kind : skind) (p : parser) (strict : bool) (out : bytes),
  rest <> [] -> file_fuel (mkfile (text ++ rest) 0 strict) <= budget ->
  let '(result, written, _) := x_for_records cut_ops budget (x_emit cut_ops budget) out (x_new kind (mkcut (mkfile text 0 strict) e) p) in
  let '(result0, written0, _) := for_records (emit None) out (new_stream kind (mkfile (text ++ rest) 0 strict) p) in
  result <> Ret tt /\
  (result = result0 /\ written = written0 \/ result = Raise e /\ exists more, written0 = written ++ more).
Proof.
  intros P X e budget kind p strict out HX Hb.
  set (good := mkfile (P ++ X) 0 strict) in *. set (bad := mkcut (mkfile P 0 strict) e).
  set (x := x_new kind bad p). set (y := new_stream kind good p).
  assert (Hr : List.length (StreamFacts.rest y) + 2 <= file_fuel good) by (exact (rest_len y)).
  assert (HR : Rst (cut_same P X e) x y) by (repeat split; cbn; lia).
  assert (Hf : fits budget y) by (unfold fits; lia).
  assert (E : for_records (emit None) out y = iter_loop budget (emit None) out y).
  { unfold for_records. apply (iter_fuel _ from_archive read_from_archive emit_later); [exact (rest_fuel y)|unfold bytes in *; lia]. }
  rewrite E. unfold x_for_records.
  assert (Hl : forall f f' : file, cut_lost P f -> f_data f' = f_data f -> f_strict f' = f_strict f -> f_pos f <= f_pos f' -> cut_lost P f') by (unfold cut_lost; intros; lia).
  pose proof (ag_iter cut_ops budget (cut_same P X e) (eq e) (cut_lost P) (cut_honest P X e HX) Hl eq Pre Pre_refl Pre_trans (x_emit cut_ops budget) (emit None) from_archive read_from_archive
     (ag_emit cut_ops budget (cut_same P X e) (eq e) (cut_lost P) (cut_honest P X e HX) Hl) emit_later (fun s st it G _ => emit_pre s st it G) budget out out x y eq_refl HR Hf) as A.
  pose proof (iter_end budget out y) as Q.
  destruct (x_iter_loop cut_ops budget budget (x_emit cut_ops budget) out x) as [[o h] x1].
  destruct (iter_loop budget (emit None) out y) as [[o0 h0] y1].
  destruct A as [(A1 & A2 & A3)|(e' & s & A1 & A2 & A3 & (more & A4) & A6)]; cbn [fst snd] in *.
  - split; [|left; split; assumption]. intro C. rewrite C in *. rewrite <- A1 in *. specialize (A3 ltac:(discriminate)). destruct (Q h0 y1 eq_refl) as [Q1 Q2].
    destruct A3 as (_ & _ & _ & A3). destruct A3 as (_ & A3 & _ & _ & _ & A3'). unfold StreamFacts.rest, f_rest in Q1. rewrite A3 in Q1.
    assert (N : List.length (skipn (f_pos (s_fh y1)) (P ++ X)) = 0) by (rewrite Q1; reflexivity). rewrite skipn_length, app_length in N. pose proof (X_some X HX). lia.
  - subst. split; [discriminate|]. right. split; [reflexivity|]. eauto.
Qed.

(** ** Validation *)
Lemma valid_later : forall c st it, later st (snd (valid_body c st it)).
Proof.
  intros c st [[off [r|]] [|e errs]]; unfold valid_body, complain; try destruct (r_errors r); try destruct off; apply later_refl.
Qed.
Lemma valid_end f : forall st st', read_loop f None true valid_body true st = (Ret tt, true, st') -> StreamFacts.rest st' = [] /\ later st st'.
Proof.
  induction f as [|f IH]; intros st st' H; [discriminate|]. cbn [read_loop] in H.
  pose proof (proj1 (read_record_later st true)) as L. pose proof (read_record_end st true) as Q.
  destruct (read_record st true) as [[[[o [r|]] errs]|e|] s1]; try discriminate; cbn [fst snd] in *.
  - unfold valid_body, complain in H. destruct errs; [destruct (r_errors r)|]; [|destruct o; discriminate ..].
    destruct (IH _ _ H) as [E L3]. split; [exact E|]. eapply later_trans; eassumption.
  - unfold valid_body, complain in H. destruct errs as [|e0 errs]; [|destruct o; discriminate]. injection H as <-. destruct (Q _ _ _ eq_refl) as [Q1|[l Q1]]; [split; assumption|]. destruct l; discriminate.
Qed.
(** warcvalid never reports a cut archive as valid, wherever it is cut *)
Theorem C69_cut_is_not_valid : forall (text : bytes) (e : exn) (budget : nat) (strict : bool) (kind : skind) (p : parser),
  List.length text + 3 <= budget ->
  x_warcvalid cut_ops budget (x_new kind (mkcut (mkfile text 0 strict) e) p) <> Ret 0%Z.
Proof.
  intros P e budget strict kind p Hb. set (X := [0%N]). assert (HX : X <> []) by discriminate.
  set (good := mkfile (P ++ X) 0 strict) in *. set (bad := mkcut (mkfile P 0 strict) e).
  set (x := x_new kind bad p). set (y := new_stream kind good p).
  assert (Hr : List.length (StreamFacts.rest y) + 2 <= file_fuel good) by (exact (rest_len y)).
  assert (Hg : file_fuel good <= budget) by (unfold file_fuel, good; cbn [f_data]; rewrite app_length; cbn; lia).
  assert (HR : Rst (cut_same P X e) x y) by (repeat split; cbn; lia).
  assert (Hf : fits budget y) by (unfold fits; lia).
  assert (Hl : forall f f' : file, cut_lost P f -> f_data f' = f_data f -> f_strict f' = f_strict f -> f_pos f <= f_pos f' -> cut_lost P f') by (unfold cut_lost; intros; lia).
  assert (Hb2 : forall s1 s2 a b it, s1 = s2 -> Rst (cut_same P X e) a b -> fits budget b ->
     agl (cut_same P X e) (eq e) (cut_lost P) eq (fun _ _ : bool => True) (x_valid_body s1 a it) (valid_body s2 b it)).
  { intros s1 s2 a b it <- H _. left. destruct it as [[off [r|]] [|e0 errs]]; unfold x_valid_body, valid_body, complain; try destruct (r_errors r); try destruct off; (split; [reflexivity|]); (split; [reflexivity|]); intros _; exact H. }
  pose proof (ag_loop cut_ops budget (cut_same P X e) (eq e) (cut_lost P) (cut_honest P X e HX) Hl eq (fun _ _ => True) (fun _ => I) (fun _ _ _ _ _ => I) x_valid_body valid_body Hb2 valid_later (fun _ _ _ _ => I)
     true budget None true true x y eq_refl HR Hf) as A.
  unfold x_warcvalid, x_for_read_records. pose proof (valid_end budget y) as Q.
  destruct (x_read_loop cut_ops budget budget None true x_valid_body true x) as [[o c] x1].
  destruct (read_loop budget None true valid_body true y) as [[o0 c0] y1].
  destruct A as [(A1 & A2 & A3)|(e' & s & A1 & _)]; cbn [fst snd] in *.
  - subst o0 c0. destruct o as [[]|e'|]; [destruct c|..]; try discriminate. specialize (A3 ltac:(discriminate)). destruct (Q y1 eq_refl) as [Q1 _].
    destruct A3 as (_ & _ & _ & A3). destruct A3 as (_ & A3 & _ & _ & _ & A3'). unfold StreamFacts.rest, f_rest in Q1. rewrite A3 in Q1.
    assert (N : List.length (skipn (f_pos (s_fh y1)) (P ++ X)) = 0) by (rewrite Q1; reflexivity). rewrite skipn_length, app_length in N. cbn in N. lia.
  - subst o. destruct c; discriminate.
Qed.

(** ** Cases *)
(** three records; cut at every place *)
Definition cut_sample : archive := sample_archive_ok.
Example C69_cases :
  archive_ok cut_sample /\
  forallb (fun k =>
    let '(result, seen, _) := x_for_read_records cut_ops 2000 None true (x_watching cut_ops read_all_of) [] (open_cut PWarc (firstn k (archive_text cut_sample)) EOSError) in
    match result with Raise EOSError => true | _ => false end &&
    Nat.eqb (List.length seen) (List.length (filter (fun ev => Nat.leb (snd ev) k) (needs 0 cut_sample))))
    (seq 0 (List.length (archive_text cut_sample))) = true.
Proof. split; [apply archive_okb_sound; vm_compute; reflexivity|vm_compute; reflexivity]. Qed.
(** cut in the content of the second record: the first record and its content, the second
    record, then the exception; a copy contains the first record and the head of the second *)
Definition cut_at : nat := Eval vm_compute in start_of cut_sample 1 + List.length (wrec_text (fst (nth 1 cut_sample (mkw [] [] [], [])))) - 2.
Definition cut_stream : fstream cutfile := open_cut PWarc (firstn cut_at (archive_text cut_sample)) EOSError.
Example C69_cut_case :
  (let '(result, seen, _) := x_for_read_records cut_ops 500 None true (x_watching cut_ops read_all_of) [] cut_stream in (result, List.length seen)) = (Raise EOSError, 3) /\
  (let '(result, out, _) := x_for_records cut_ops 500 (x_emit cut_ops 500) [] cut_stream in (result, List.length out)) = (Raise EOSError, 80) /\
  x_warcvalid cut_ops 500 cut_stream = Ret (-1)%Z.
Proof. vm_compute. repeat split. Qed.
(** the same archive without failures *)
Example C69_whole_case :
  let st := x_new SGzipRecord (mkfile (archive_text cut_sample) 0 true) PWarc in
  (let '(result, seen, _) := x_for_read_records plain_ops 500 None true (x_watching plain_ops read_all_of) [] st in (result, List.length seen)) = (Ret tt, 7) /\
  x_warcvalid plain_ops 500 st = Ret 0%Z.
Proof. vm_compute. repeat split. Qed.
(** junk: the loop ends before the missing part is reached *)
Example C69_junk_case :
  (let '(result, seen, _) := x_for_read_records cut_ops 500 None true (x_watching cut_ops read_all_of) [] (open_cut PWarc (concat (repeat (B "junk" ++ [10%N]) 20)) EOSError) in
   (result, map (fun ev => match ev with Handed (_, None, errs) => List.length errs | _ => 0 end) seen)) = (Ret tt, [7]).
Proof. vm_compute. reflexivity. Qed.
