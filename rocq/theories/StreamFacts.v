(** Lemmas about files, lines and the record stream. *)
From Verif Require Export WarcRx Reader.

(** ** Lines *)
Fixpoint lines_of (s : bytes) : list bytes :=
  match s with
  | [] => []
  | c :: t => if N.eqb c 10 then [c] :: lines_of t
              else match lines_of t with
                   | [] => [[c]]
                   | l :: ls => (c :: l) :: ls
                   end
  end.
Lemma concat_lines s : concat (lines_of s) = s.
Proof. induction s as [|c t IH]; [reflexivity|]. cbn [lines_of].
  destruct (c =? 10)%N; cbn [concat app]; [rewrite IH; reflexivity|].
  destruct (lines_of t) as [|l ls]; cbn [concat app] in *; rewrite <- IH; reflexivity. Qed.
Lemma lines_of_nil s : lines_of s = [] <-> s = [].
Proof. split; [|intros ->; reflexivity]. intro H. rewrite <- (concat_lines s), H. reflexivity. Qed.
Lemma take_line_hd s : take_line s = hd [] (lines_of s).
Proof. induction s as [|c t IH]; [reflexivity|]. cbn [take_line lines_of].
  destruct (c =? 10)%N; [reflexivity|]. rewrite IH. destruct (lines_of t); reflexivity. Qed.
Lemma take_line_rest s : skipn (length (take_line s)) s = concat (tl (lines_of s)).
Proof. induction s as [|c t IH]; [reflexivity|]. cbn [take_line lines_of].
  destruct (c =? 10)%N; [cbn [length skipn tl]; rewrite concat_lines; reflexivity|].
  cbn [length skipn]. rewrite IH. destruct (lines_of t); reflexivity. Qed.
Lemma take_line_split s : s = take_line s ++ skipn (length (take_line s)) s.
Proof. rewrite take_line_rest, take_line_hd. rewrite <- (concat_lines s) at 1. destruct (lines_of s); reflexivity. Qed.
Lemma lines_of_rest s : lines_of (skipn (length (take_line s)) s) = tl (lines_of s).
Proof. induction s as [|c t IH]; [reflexivity|]. cbn [take_line lines_of].
  destruct (c =? 10)%N; [reflexivity|]. cbn [length skipn]. rewrite IH. destruct (lines_of t); reflexivity. Qed.
Lemma take_line_nil s : take_line s = [] <-> s = [].
Proof. split; [|intros ->; reflexivity]. destruct s as [|c t]; [reflexivity|]. simpl. destruct (c =? 10)%N; discriminate. Qed.
Lemma take_line_length s : length (take_line s) <= length s.
Proof. rewrite (take_line_split s) at 2. rewrite app_length. lia. Qed.

Lemma lines_of_lf a b : ~ In 10%N a -> lines_of (a ++ 10%N :: b) = (a ++ [10%N]) :: lines_of b.
Proof.
  induction a as [|c a IH]; intro H; cbn [app lines_of]; [reflexivity|].
  destruct (N.eqb_spec c 10) as [->|Hc]; [exfalso; apply H; left; reflexivity|].
  rewrite IH by (intro; apply H; right; assumption). reflexivity.
Qed.
Lemma lines_of_eof a : ~ In 10%N a -> a <> [] -> lines_of a = [a].
Proof.
  induction a as [|c a IH]; intros H Hn; [contradiction|]. cbn [lines_of].
  destruct (N.eqb_spec c 10) as [->|Hc]; [exfalso; apply H; left; reflexivity|].
  destruct a as [|d a]; [reflexivity|]. rewrite IH; [reflexivity|intro; apply H; right; assumption|discriminate].
Qed.
Lemma take_line_lf a b : ~ In 10%N a -> take_line (a ++ 10%N :: b) = a ++ [10%N].
Proof. intro H. rewrite take_line_hd, lines_of_lf by exact H. reflexivity. Qed.
Lemma take_line_eof a : ~ In 10%N a -> take_line a = a.
Proof. intro H. destruct a as [|c a]; [reflexivity|]. rewrite take_line_hd, lines_of_eof; [reflexivity|exact H|discriminate]. Qed.

Lemma take_line_one_line s : one_line (take_line s).
Proof.
  induction s as [|c t IH]; cbn [take_line]; [apply one_line_no_lf; intros []|].
  destruct (N.eqb_spec c 10) as [->|Hc]; [exact (one_line_lf [] (fun x => x))|].
  intros a b E. destruct a as [|x a]; [injection E as E _; contradiction|].
  injection E as _ E. exact (IH a b E).
Qed.
Lemma lines_one_line s l : In l (lines_of s) -> one_line l /\ l <> [].
Proof.
  revert l; induction s as [|c t IH]; intros l H; [destruct H|]. cbn [lines_of] in H.
  destruct (N.eqb_spec c 10) as [->|Hc].
  - destruct H as [<-|H]; [|exact (IH l H)]. split; [exact (one_line_lf [] (fun x => x))|discriminate].
  - destruct (lines_of t) as [|l0 ls].
    + destruct H as [<-|[]]. split; [|discriminate]. apply one_line_no_lf. intros [H|[]]. contradiction.
    + destruct H as [<-|H]; [|apply IH; right; exact H]. split; [|discriminate].
      intros a b E. destruct a as [|x a]; [injection E as E _; contradiction|].
      injection E as _ E. exact (proj1 (IH l0 (or_introl eq_refl)) a b E).
Qed.
Lemma lines_length s : length (lines_of s) <= length s.
Proof. induction s as [|c t IH]; [simpl; lia|]. cbn [lines_of].
  destruct (c =? 10)%N; [simpl; lia|]. destruct (lines_of t); simpl in *; lia. Qed.

Lemma skipn_skipn' {A} (a b : nat) (l : list A) : skipn a (skipn b l) = skipn (b + a) l.
Proof. revert l; induction b as [|b IH]; intro l; [reflexivity|]. destruct l; [rewrite !skipn_nil; reflexivity|]. apply IH. Qed.

(** ** Files *)
Lemma f_advance_0 f : f_advance f 0 = f.
Proof. destruct f as [d p s]. unfold f_advance. simpl. rewrite Nat.add_0_r. reflexivity. Qed.
Lemma f_advance_advance f a b : f_advance (f_advance f a) b = f_advance f (a + b).
Proof. unfold f_advance. simpl. rewrite Nat.add_assoc. reflexivity. Qed.
Lemma f_rest_advance f n : f_rest (f_advance f n) = skipn n (f_rest f).
Proof. unfold f_rest, f_advance. simpl. rewrite skipn_skipn'. reflexivity. Qed.
Lemma f_rest_app f a b : f_rest f = a ++ b -> f_rest (f_advance f (length a)) = b.
Proof. intro H. rewrite f_rest_advance, H, skipn_app, skipn_all, Nat.sub_diag. reflexivity. Qed.
Lemma f_rest_length f : length (f_rest f) <= length (f_data f).
Proof. unfold f_rest. rewrite skipn_length. lia. Qed.

(** ** Streams *)
Definition rest (st : stream) : bytes := f_rest (s_fh st).
Definition pos (st : stream) : nat := f_tell (s_fh st).
Definition adv (st : stream) (n : nat) : stream := set_fh st (f_advance (s_fh st) n).
Lemma adv_0 st : adv st 0 = st.
Proof. destruct st as [k f e p]. unfold adv, set_fh. simpl. rewrite f_advance_0. reflexivity. Qed.
Lemma adv_adv st a b : adv (adv st a) b = adv st (a + b).
Proof. unfold adv, set_fh. simpl. rewrite f_advance_advance. reflexivity. Qed.
Lemma rest_adv st n : rest (adv st n) = skipn n (rest st).
Proof. apply f_rest_advance. Qed.
Lemma rest_adv_app st a b : rest st = a ++ b -> rest (adv st (length a)) = b.
Proof. apply f_rest_app. Qed.
Lemma pos_adv st n : pos (adv st n) = pos st + n.
Proof. reflexivity. Qed.
Lemma eoc_adv st n : s_eoc (adv st n) = s_eoc st.
Proof. reflexivity. Qed.
Lemma set_eoc_eta st : set_eoc st (s_eoc st) = st.
Proof. destruct st; reflexivity. Qed.
Lemma count_down_none st n : s_eoc st = None -> count_down st n = st.
Proof. intro H. unfold count_down. rewrite H. rewrite <- H at 1. apply set_eoc_eta. Qed.
Lemma fuel_adv st n : file_fuel (s_fh (adv st n)) = file_fuel (s_fh st).
Proof. reflexivity. Qed.
Lemma rest_fuel st : length (rest st) < file_fuel (s_fh st).
Proof. unfold rest, file_fuel. pose proof (f_rest_length (s_fh st)). lia. Qed.

(** readline before the content length is known *)
Lemma readline_none st : s_eoc st = None ->
  stream_readline st None = (take_line (rest st), adv st (length (take_line (rest st)))).
Proof.
  intro H. unfold stream_readline, bounded. rewrite H. cbn [f_readline].
  unfold f_readline. rewrite count_down_none by exact H. reflexivity.
Qed.
Lemma readline_lines st : s_eoc st = None ->
  stream_readline st None = (hd [] (lines_of (rest st)), adv st (length (hd [] (lines_of (rest st))))) /\
  lines_of (rest (adv st (length (hd [] (lines_of (rest st)))))) = tl (lines_of (rest st)).
Proof.
  intro H. rewrite readline_none by exact H. rewrite <- take_line_hd. split; [reflexivity|].
  rewrite rest_adv. apply lines_of_rest.
Qed.

(** ** Skipping terminators *)
Fixpoint blank_lines (ls : list bytes) : nat :=
  match ls with
  | [] => 0
  | l :: t => if crlf_only l then length l + blank_lines t else 0
  end.
Fixpoint first_text (ls : list bytes) : bytes :=
  match ls with
  | [] => []
  | l :: t => if crlf_only l then first_text t else l
  end.
Lemma blank_loop_eq fuel : forall f, length (f_rest f) < fuel ->
  let ls := lines_of (f_rest f) in
  blank_loop fuel f =
  (Ret (f_tell f + blank_lines ls, first_text ls), f_advance f (blank_lines ls + length (first_text ls))).
Proof.
  induction fuel as [|fuel IH]; intros f H; [lia|]. cbn zeta. cbn [blank_loop]. unfold f_readline.
  rewrite crlf_line_test, take_line_hd.
  destruct (lines_of (f_rest f)) as [|l t] eqn:E; cbn [hd].
  - cbn [crlf_only blank_lines first_text length]. rewrite Nat.add_0_r. reflexivity.
  - cbn [blank_lines first_text]. destruct (crlf_only l) eqn:El; [|rewrite Nat.add_0_r; reflexivity].
    assert (Hl : l = take_line (f_rest f)) by (rewrite take_line_hd, E; reflexivity).
    assert (E2 : lines_of (f_rest (f_advance f (length l))) = t).
    { rewrite f_rest_advance, Hl, lines_of_rest, E. reflexivity. }
    assert (Hlen : length (f_rest (f_advance f (length l))) < fuel).
    { rewrite f_rest_advance, skipn_length. assert (length l <> 0) by (destruct l; [discriminate|simpl; lia]).
      assert (length l <= length (f_rest f)) by (rewrite Hl; apply take_line_length). lia. }
    rewrite (IH _ Hlen), E2, f_advance_advance. cbn [f_advance f_tell f_pos].
    unfold f_tell. cbn [f_advance f_pos]. rewrite !Nat.add_assoc. reflexivity.
Qed.
Lemma skip_blank_eq f : let ls := lines_of (f_rest f) in
  skip_blank f = (Ret (f_tell f + blank_lines ls, first_text ls), f_advance f (blank_lines ls + length (first_text ls))).
Proof. apply blank_loop_eq. unfold file_fuel. pose proof (f_rest_length f). lia. Qed.

(** A separator: nothing, or CR and LF bytes ending in LF. *)
Definition separator (s : bytes) : Prop :=
  (forall c, In c s -> c = 13%N \/ c = 10%N) /\ (s = [] \/ exists t, s = t ++ [10%N]).
Lemma separator_nil : separator [].
Proof. split; [intros c []|auto]. Qed.
Lemma separator_tl a b : separator (a ++ b) -> b <> [] -> separator b.
Proof.
  intros [H1 H2] Hb. split; [intros c Hc; apply H1, in_or_app; auto|].
  destruct H2 as [H2|[t H2]]; [apply app_eq_nil in H2 as [_ ?]; contradiction|].
  destruct (last_case b) as [->|(u & x & ->)]; [contradiction|]. rewrite app_assoc in H2.
  apply app_inj_tail in H2 as [_ ->]. right. exists u. reflexivity.
Qed.
Lemma first_lf s : In 10%N s -> exists a b, s = a ++ 10%N :: b /\ ~ In 10%N a.
Proof.
  induction s as [|c s IH]; intros H; [destruct H|].
  destruct (N.eq_dec c 10) as [->|Hc]; [exists [], s; auto|].
  destruct H as [H|H]; [contradiction|]. destruct (IH H) as (a & b & -> & Hn).
  exists (c :: a), b. split; [reflexivity|]. intros [E|E]; [contradiction|auto].
Qed.
Lemma lines_separator s : separator s -> forall x,
  blank_lines (lines_of (s ++ x)) = length s + blank_lines (lines_of x) /\
  first_text (lines_of (s ++ x)) = first_text (lines_of x).
Proof.
  remember (length s) as n eqn:En. revert s En. induction n as [n IH] using lt_wf_ind. intros s En Hs x.
  destruct Hs as [H1 H2]. destruct H2 as [->|[t ->]].
  - simpl in En. subst n. split; reflexivity.
  - destruct (first_lf (t ++ [10%N])) as (a & b & E & Ha); [apply in_or_app; right; left; reflexivity|].
    rewrite E in *. rewrite <- app_assoc. cbn [app]. rewrite lines_of_lf by exact Ha. cbn [blank_lines first_text].
    assert (Hc : crlf_only (a ++ [10%N]) = true).
    { unfold crlf_only. destruct (a ++ [10%N]) eqn:Ea; [destruct a; discriminate|]. rewrite <- Ea.
      apply forallb_forall. intros c Hc. unfold is_crlf.
      assert (Hc' : In c (a ++ 10%N :: b)).
      { apply in_app_or in Hc as [Hc|[<-|[]]]; apply in_or_app; [left; exact Hc|right; left; reflexivity]. }
      destruct (H1 c Hc') as [->| ->]; reflexivity. }
    rewrite Hc. rewrite app_length in En. cbn [length] in En.
    destruct (bytes_dec b []) as [->|Hb].
    + rewrite app_length. simpl in *. split; [lia|reflexivity].
    + assert (Hsb : separator b).
      { apply (separator_tl (a ++ [10%N]) b); [|exact Hb]. rewrite <- app_assoc. cbn [app]. split; [exact H1|]. right.
        exists t. symmetry. exact E. }
      destruct (IH (length b) ltac:(lia) b eq_refl Hsb x) as [I1 I2]. rewrite I1, I2.
      rewrite app_length. cbn [length]. split; [lia|reflexivity].
Qed.
Lemma skip_blank_sep f s x : f_rest f = s ++ x -> separator s ->
  skip_blank f = skip_blank (f_advance f (length s)).
Proof.
  intros E Hs. rewrite !skip_blank_eq. rewrite (f_rest_app _ _ _ E), E.
  destruct (lines_separator s Hs x) as [-> ->].
  unfold f_tell. cbn [f_advance f_pos]. rewrite f_advance_advance.
  rewrite !Nat.add_assoc. reflexivity.
Qed.

(** ** Skipping to the end of the content *)
Lemma skip_loop_ok fuel : forall st left after,
  s_eoc st = Some (Z.of_nat (length left)) -> rest st = left ++ after -> length left < fuel ->
  skip_loop fuel st = (Ret tt, set_eoc (adv st (length left)) (Some 0%Z)).
Proof.
  induction fuel as [|fuel IH]; intros st left after He Hr Hf; [lia|].
  cbn [skip_loop]. rewrite He.
  destruct left as [|c left'] eqn:El.
  - simpl. rewrite adv_0. simpl in He. rewrite <- He. rewrite set_eoc_eta. reflexivity.
  - rewrite <- El in *. assert (Hl : 1 <= length left) by (rewrite El; simpl; lia).
    assert (Hlt : (0 <? Z.of_nat (length left))%Z = true) by lia. rewrite Hlt.
    set (n := Z.to_nat (Z.min CHUNK_SIZE (Z.of_nat (length left)))).
    assert (Hn : Z.min CHUNK_SIZE (Z.of_nat (length left)) = Z.of_nat n) by (unfold n, CHUNK_SIZE; lia).
    rewrite Hn. cbn [raw_read]. unfold f_read.
    assert (Hneg : (Z.of_nat n <? 0)%Z = false) by lia. rewrite Hneg. rewrite Nat2Z.id.
    assert (Hn1 : n <= length left) by (unfold CHUNK_SIZE in Hn; lia).
    assert (Hn2 : 1 <= n) by (unfold CHUNK_SIZE in Hn; lia).
    change (f_rest (s_fh st)) with (rest st). rewrite Hr.
    assert (Efn : firstn n (left ++ after) = firstn n left).
    { rewrite firstn_app. replace (n - length left) with 0 by lia. apply app_nil_r. }
    rewrite Efn. assert (Elen : length (firstn n left) = n) by (rewrite firstn_length; lia). rewrite Elen.
    rewrite Z.ltb_irrefl.
    change (set_fh st (f_advance (s_fh st) n)) with (adv st n).
    assert (Ecd : count_down (adv st n) n = set_eoc (adv st n) (Some (Z.of_nat (length (skipn n left))))).
    { unfold count_down. rewrite eoc_adv, He. f_equal. f_equal. rewrite skipn_length. lia. }
    rewrite Ecd. rewrite (IH _ (skipn n left) after).
    + f_equal. rewrite skipn_length. unfold set_eoc, adv, set_fh. simpl. rewrite f_advance_advance.
      replace (n + (length left - n)) with (length left) by lia. reflexivity.
    + reflexivity.
    + change (rest (set_eoc (adv st n) _)) with (rest (adv st n)). rewrite rest_adv, Hr, skipn_app.
      replace (n - length left) with 0 by lia. reflexivity.
    + rewrite skipn_length. lia.
Qed.
Lemma skip_to_eoc_ok st left after :
  s_eoc st = Some (Z.of_nat (length left)) -> rest st = left ++ after ->
  skip_to_eoc st = (Ret tt, set_eoc (adv st (length left)) (Some 0%Z)).
Proof.
  intros He Hr. apply (skip_loop_ok _ _ _ after He Hr).
  pose proof (rest_fuel st) as H. rewrite Hr, app_length in H. lia.
Qed.
(** not enough bytes: an exception *)
Lemma skip_loop_short fuel : forall st e,
  s_eoc st = Some (Z.of_nat e) -> length (rest st) < e -> length (rest st) < fuel ->
  exists st', skip_loop fuel st = (Raise E_short, st').
Proof.
  induction fuel as [|fuel IH]; intros st e He Hr Hf; [lia|].
  cbn [skip_loop]. rewrite He.
  assert (Hlt : (0 <? Z.of_nat e)%Z = true) by lia. rewrite Hlt.
  set (n := Z.to_nat (Z.min CHUNK_SIZE (Z.of_nat e))).
  assert (Hn : Z.min CHUNK_SIZE (Z.of_nat e) = Z.of_nat n) by (unfold n, CHUNK_SIZE; lia).
  rewrite Hn. cbn [raw_read]. unfold f_read.
  assert (Hneg : (Z.of_nat n <? 0)%Z = false) by lia. rewrite Hneg. rewrite Nat2Z.id.
  assert (Hn1 : 1 <= n <= e) by (unfold CHUNK_SIZE in Hn; lia).
  change (f_rest (s_fh st)) with (rest st). rewrite firstn_length.
  destruct (Nat.le_gt_cases n (length (rest st))) as [L|L].
  - rewrite Nat.min_l by exact L. rewrite Z.ltb_irrefl.
    change (set_fh st (f_advance (s_fh st) n)) with (adv st n).
    assert (Ecd : count_down (adv st n) n = set_eoc (adv st n) (Some (Z.of_nat (e - n)))).
    { unfold count_down. rewrite eoc_adv, He. f_equal. f_equal. lia. }
    rewrite Ecd. apply (IH _ (e - n)); [reflexivity| |].
    + change (rest (set_eoc (adv st n) _)) with (rest (adv st n)). rewrite rest_adv, skipn_length. lia.
    + change (rest (set_eoc (adv st n) _)) with (rest (adv st n)). rewrite rest_adv, skipn_length. lia.
  - rewrite Nat.min_r by lia. assert (Hb : (Z.of_nat (length (rest st)) <? Z.of_nat n)%Z = true) by lia.
    rewrite Hb. eauto.
Qed.
Lemma skip_to_eoc_short st e :
  s_eoc st = Some (Z.of_nat e) -> length (rest st) < e ->
  exists st', skip_to_eoc st = (Raise E_short, st').
Proof. intros He Hr. apply (skip_loop_short _ _ e He Hr). apply rest_fuel. Qed.

(** ** Reading the next record does not depend on what was consumed *)
Definition fresh (st : stream) : stream := set_eoc st None.

Lemma read_record_skip st b left after :
  s_eoc st = Some (Z.of_nat (length left)) -> rest st = left ++ after ->
  read_record st b = read_record (fresh (adv st (length left))) b.
Proof.
  intros He Hr. unfold read_record at 1. rewrite He, (skip_to_eoc_ok _ _ _ He Hr). reflexivity.
Qed.
Lemma read_record_sep st b s after : s_eoc st = None -> rest st = s ++ after -> separator s ->
  read_record st b = read_record (adv st (length s)) b.
Proof.
  intros He Hr Hs. unfold read_record. rewrite eoc_adv, He.
  change (s_fh (set_eoc st None)) with (s_fh st).
  change (s_fh (set_eoc (adv st (length s)) None)) with (f_advance (s_fh st) (length s)).
  rewrite (skip_blank_sep _ s after Hr Hs). reflexivity.
Qed.
Lemma read_record_short st b e : s_eoc st = Some (Z.of_nat e) -> length (rest st) < e ->
  exists st', read_record st b = (Raise E_short, st').
Proof.
  intros He Hr. unfold read_record. rewrite He. destruct (skip_to_eoc_short _ _ He Hr) as [st' ->]. eauto.
Qed.

(** ** Bounded reads *)
Definition nonneg (o : option Z) : Prop := match o with Some n => (0 <= n)%Z | None => True end.
Definition cop_nonneg (o : cop) : Prop := match o with OpRead n | OpReadline n => nonneg n end.
(** [left] is what is still to be read of the payload, [after] what follows it. *)
Definition in_payload (st : stream) (left after : bytes) : Prop :=
  s_eoc st = Some (Z.of_nat (length left)) /\ rest st = left ++ after.
Definition moved (st : stream) (n : nat) (e : Z) : stream := set_eoc (adv st n) (Some e).

Lemma firstn_take_line n s t : n <= length s -> firstn n (take_line (s ++ t)) = firstn n (take_line s).
Proof.
  revert n; induction s as [|c s IH]; intros n Hn; [simpl in Hn; replace n with 0 by lia; reflexivity|].
  cbn [app take_line]. destruct (c =? 10)%N; [reflexivity|]. destruct n as [|n]; [reflexivity|].
  cbn [firstn]. rewrite IH by (simpl in Hn; lia). reflexivity.
Qed.
Lemma prefix_firstn_take_line n s : exists t, s = firstn n (take_line s) ++ t.
Proof. exists (skipn (length (firstn n (take_line s))) s).
  assert (E : firstn n (take_line s) = firstn (length (firstn n (take_line s))) s).
  { rewrite firstn_length. rewrite (take_line_split s) at 3. rewrite firstn_app.
    replace (Nat.min n (length (take_line s)) - length (take_line s)) with 0 by lia. rewrite app_nil_r.
    destruct (Nat.le_gt_cases n (length (take_line s))); [rewrite Nat.min_l by lia; reflexivity|].
    rewrite Nat.min_r by lia. rewrite !firstn_all2 by lia. reflexivity. }
  rewrite E at 1. symmetry. apply firstn_skipn. Qed.

(** what a bounded call returns *)
Definition cop_result (o : cop) (left : bytes) : bytes :=
  match o with
  | OpRead None => left
  | OpRead (Some n) => firstn (Z.to_nat n) left
  | OpReadline None => take_line left
  | OpReadline (Some n) => firstn (Z.to_nat n) (take_line left)
  end.
Lemma cop_result_prefix o left : exists left', left = cop_result o left ++ left'.
Proof.
  destruct o as [[n|]|[n|]]; cbn [cop_result].
  - exists (skipn (Z.to_nat n) left). symmetry. apply firstn_skipn.
  - exists []. rewrite app_nil_r. reflexivity.
  - apply prefix_firstn_take_line.
  - exists (skipn (length (take_line left)) left). apply take_line_split.
Qed.
Lemma run_cop_ok st left after o : in_payload st left after -> cop_nonneg o ->
  run_cop st o = (Ret (cop_result o left),
     moved st (length (cop_result o left)) (Z.of_nat (length left) - Z.of_nat (length (cop_result o left)))%Z).
Proof.
  intros [He Hr] Ho.
  assert (Hmin : forall n, nonneg n -> exists m, bounded st n = Some (Z.of_nat m) /\ m <= length left /\
            (match n with Some z => m = Nat.min (Z.to_nat z) (length left) | None => m = length left end)).
  { intros [z|] Hz; unfold bounded; rewrite He.
    - exists (Nat.min (Z.to_nat z) (length left)). simpl in Hz. split; [f_equal; lia|split; [lia|reflexivity]].
    - exists (length left). split; [reflexivity|split; [lia|reflexivity]]. }
  assert (Hcd : forall m, count_down (adv st m) m = moved st m (Z.of_nat (length left) - Z.of_nat m)%Z).
  { intro m. unfold count_down. rewrite eoc_adv, He. reflexivity. }
  destruct o as [n|n]; cbn [cop_nonneg] in Ho; destruct (Hmin n Ho) as (m & Em & Hm & Hmn); cbn [run_cop].
  - unfold stream_read. rewrite Em. cbn [raw_read]. unfold f_read.
    assert (Hneg : (Z.of_nat m <? 0)%Z = false) by lia. rewrite Hneg, Nat2Z.id.
    change (f_rest (s_fh st)) with (rest st). rewrite Hr.
    assert (Ef : firstn m (left ++ after) = cop_result (OpRead n) left).
    { rewrite firstn_app. replace (m - length left) with 0 by lia. simpl. rewrite app_nil_r.
      destruct n as [z|]; subst m; [|apply firstn_all].
      destruct (Nat.le_gt_cases (Z.to_nat z) (length left)); [rewrite Nat.min_l by lia; reflexivity|].
      rewrite Nat.min_r by lia. rewrite !firstn_all2 by lia. reflexivity. }
    rewrite Ef. set (d := cop_result (OpRead n) left).
    change (set_fh st (f_advance (s_fh st) (length d))) with (adv st (length d)). rewrite Hcd. reflexivity.
  - unfold stream_readline. rewrite Em. unfold f_readline_lim.
    assert (Hneg : (Z.of_nat m <? 0)%Z = false) by lia. rewrite Hneg, Nat2Z.id.
    change (f_rest (s_fh st)) with (rest st). rewrite Hr.
    assert (Ef : firstn m (take_line (left ++ after)) = cop_result (OpReadline n) left).
    { rewrite firstn_take_line by exact Hm. pose proof (take_line_length left) as Hl.
      destruct n as [z|]; subst m.
      - cbn [cop_result]. destruct (Nat.le_gt_cases (Z.to_nat z) (length left)); [rewrite Nat.min_l by lia; reflexivity|].
        rewrite Nat.min_r by lia. rewrite !firstn_all2 by lia. reflexivity.
      - cbn [cop_result]. apply firstn_all2. exact Hl. }
    rewrite Ef. set (d := cop_result (OpReadline n) left).
    change (set_fh st (f_advance (s_fh st) (length d))) with (adv st (length d)). rewrite Hcd. reflexivity.
Qed.
Lemma run_cop_keeps st left after o left' : in_payload st left after -> cop_nonneg o ->
  left = cop_result o left ++ left' ->
  in_payload (snd (run_cop st o)) left' after.
Proof.
  intros Hi Ho E. rewrite (run_cop_ok _ _ _ _ Hi Ho). destruct Hi as [He Hr]. split.
  - cbn [snd moved set_eoc s_eoc]. f_equal. rewrite E at 1. rewrite app_length. lia.
  - cbn [snd]. change (rest (moved st ?n ?e)) with (rest (adv st n)). rewrite rest_adv, Hr.
    generalize dependent (cop_result o left). intros d E. rewrite E, <- app_assoc, skipn_app, skipn_all, Nat.sub_diag. reflexivity.
Qed.

(** any number of calls: the results, in order, and the state *)
Fixpoint cops_results (ops : list cop) (left : bytes) : list bytes * bytes :=
  match ops with
  | [] => ([], left)
  | o :: t => let d := cop_result o left in
              let '(ds, l) := cops_results t (skipn (length d) left) in (d :: ds, l)
  end.
Lemma run_cops_ok ops : forall st left after, in_payload st left after -> Forall cop_nonneg ops ->
  exists left', run_cops st ops =
    (Ret (fst (cops_results ops left)), moved st (length left - length left') (Z.of_nat (length left'))) /\
    left' = snd (cops_results ops left) /\
    left = concat (fst (cops_results ops left)) ++ left' /\
    in_payload (moved st (length left - length left') (Z.of_nat (length left'))) left' after.
Proof.
  induction ops as [|o ops IH]; intros st left after Hi Hn.
  - exists left. cbn. rewrite Nat.sub_diag. destruct Hi as [He Hr].
    assert (E : moved st 0 (Z.of_nat (length left)) = st) by (unfold moved; rewrite adv_0, <- He; apply set_eoc_eta).
    rewrite E. split; [reflexivity|]. split; [reflexivity|]. split; [reflexivity|]. split; assumption.
  - inversion Hn as [|? ? Ho Hn']; subst. cbn [run_cops].
    destruct (cop_result_prefix o left) as [l1 E1].
    pose proof (run_cop_keeps _ _ _ _ _ Hi Ho E1) as Hk.
    rewrite (run_cop_ok _ _ _ _ Hi Ho) in *. cbn [snd] in Hk.
    cbn [cops_results]. set (d := cop_result o left) in *.
    assert (Esk : skipn (length d) left = l1) by (rewrite E1 at 1; rewrite skipn_app, skipn_all, Nat.sub_diag; reflexivity).
    rewrite Esk. destruct (IH _ _ _ Hk Hn') as (l2 & Er & El2 & Ec & Hi2). rewrite Er.
    destruct (cops_results ops l1) as [ds l] eqn:Ecr. cbn [fst snd] in *. subst l.
    exists l2. cbn [omap concat].
    assert (Elen : length left = length d + length l1) by (rewrite E1 at 1; apply app_length).
    assert (Elen2 : length l2 <= length l1) by (rewrite Ec, app_length; lia).
    assert (Em : moved (moved st (length d) (Z.of_nat (length left) - Z.of_nat (length d))) (length l1 - length l2) (Z.of_nat (length l2))
       = moved st (length left - length l2) (Z.of_nat (length l2))).
    { unfold moved, set_eoc, adv, set_fh. simpl. rewrite f_advance_advance. do 2 f_equal. lia. }
    rewrite Em in *. split; [reflexivity|]. split; [reflexivity|]. split; [|exact Hi2].
    rewrite <- app_assoc, <- Ec. exact E1.
Qed.
