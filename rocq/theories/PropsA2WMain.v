(** C82: the options of arc2warc. *)
From Verif Require Export A2WMain PropsA2WAny.
From Coq Require Import String List Lia ZArith.
Open Scope list_scope.

(** ** Specification *)
(** the name of the output file: an empty name counts as none *)
Definition output_name (o : a2w_options) (name : text) : Prop := op_output o = Some name /\ name <> [].
Definition no_output (o : a2w_options) : Prop := op_output o = None \/ op_output o = Some [].
(** compressed output: -Z, or an output name that ends in .gz *)
Definition compressed_output (o : a2w_options) : Prop := op_gzip o = true \/ exists t, output_name o (t ++ B ".gz").
Definition compressor (gzip : gzipper) (o : a2w_options) (gz : option gzipper) : Prop :=
  (compressed_output o -> gz = Some gzip) /\ (~ compressed_output o -> gz = None).
(** the prefixes given, all of them texts *)
Definition text_prefixes (given : list text) (ps : list uprefix) : Prop := List.length ps = List.length given /\ Forall (fun p => p = Arc2Warc.PText) ps.
(** all records of a text, with the contents the lengths say *)
Inductive visits : list bytes -> bytes -> list record -> Prop :=
| visits_end names text n names' : finds true names text (FNone n []) names' -> visits names text []
| visits_rec names text n r len more names' p rest d body after rs : finds true names text (FRec n r len more) names' ->
    piece len more = Some (p, rest, d) -> rest = body ++ after -> Z.of_nat (List.length body) = Z.max 0 d -> visits names' after rs ->
    visits names text (r :: rs).
Definition a_warc_record (r : record) : Prop := exists v, r_class r = RWarc v.
Definition a_filedesc_record (r : record) : Prop := exists v ls, r_class r = RArcHeader v ls.
(** the lines of a text that ends lines with CRLF *)
Definition crlf_lines (content : bytes) (ls : list bytes) : Prop := ls <> [] /\ join CRLF ls = content /\ Forall (fun l => forall a b, l <> a ++ CRLF ++ b) ls.
Definition plain_text (t : text) : Prop := Forall (fun c => c <> 13%N /\ c <> 10%N) t.
(** code points that can be encoded: no surrogates *)
Definition encodable (t : text) : Prop := Forall (fun c => (c < 55296 \/ 57343 < c)%N) t.
Definition code_points (t : text) : Prop := Forall (fun c => (c < 1114112)%N) t.

(** ** Lemmas *)
Lemma ret_inj {A} (a b : A) : Ret a = Ret b -> a = b. Proof. congruence. Qed.
Lemma cons_eq {A} (a b : A) l m : a :: l = b :: m -> a = b /\ l = m. Proof. intro E. injection E as -> ->. auto. Qed.
Lemma utf8_char_iff c : (exists b, utf8_char c = Ret b) <-> (c < 55296 \/ 57343 < c)%N.
Proof.
  unfold utf8_char. destruct (N.ltb_spec c 128); [split; [lia|eauto]|]. destruct (N.ltb_spec c 2048); [split; [lia|eauto]|].
  destruct (N.leb_spec 55296 c); destruct (N.leb_spec c 57343); cbn [andb]; try (split; [intros [b E]; discriminate|lia]); destruct (c <? 65536)%N; (split; [lia|eauto]).
Qed.
Lemma utf8_app a : forall b, utf8 (a ++ b) = bind (utf8 a) (fun x => bind (utf8 b) (fun y => Ret (x ++ y))).
Proof.
  induction a as [|c a IH]; intro b; cbn [app utf8]; [destruct (utf8 b); reflexivity|]. destruct (utf8_char c) as [x|e|]; [|reflexivity|reflexivity]. cbn [bind]. rewrite IH.
  destruct (utf8 a) as [y|e|]; [|reflexivity|reflexivity]. cbn [bind]. destruct (utf8 b); cbn [bind]; rewrite <- ?app_assoc; reflexivity.
Qed.
Lemma utf8_iff t : encodable t <-> exists b, utf8 t = Ret b.
Proof.
  induction t as [|c t IH]; cbn [utf8]; [split; [eauto|constructor]|]. split.
  - intro H. inversion H as [|? ? H1 H2]; subst. apply utf8_char_iff in H1 as [x ->]. apply IH in H2 as [y ->]. eexists. reflexivity.
  - destruct (utf8_char c) as [x|e|] eqn:E1; cbn [bind]; [|intros [b E]; discriminate|intros [b E]; discriminate]. destruct (utf8 t) as [y|e|] eqn:E2; cbn [bind]; [|intros [b E]; discriminate|intros [b E]; discriminate].
    intros _. constructor; [apply utf8_char_iff; eauto|apply IH; eauto].
Qed.
Lemma utf8_ascii t : Forall (fun c => (c < 128)%N) t -> utf8 t = Ret t.
Proof. induction 1 as [|c t H _ IH]; [reflexivity|]. cbn [utf8]. unfold utf8_char. destruct (N.ltb_spec c 128); [|lia]. cbn [bind]. rewrite IH. reflexivity. Qed.
(** carriage returns and line feeds come from such characters only *)
Lemma utf8_char_ends c b : utf8_char c = Ret b -> c <> 13%N -> c <> 10%N -> ~ In 13%N b /\ ~ In 10%N b.
Proof.
  unfold utf8_char. intros E H1 H2.
  destruct (N.ltb_spec c 128); [|destruct (N.ltb_spec c 2048); [|destruct (_ && _); [discriminate|destruct (c <? 65536)%N]]]; apply ret_inj in E; subst b;
    (split; intro Hi; cbn [In] in Hi; repeat (destruct Hi as [Hi|Hi]; [lia|]); exact Hi).
Qed.
Lemma utf8_plain t b : utf8 t = Ret b -> plain_text t -> ~ In 13%N b /\ ~ In 10%N b.
Proof.
  intros E H. revert b E. induction H as [|c t [H1 H2] _ IH]; intros b E; cbn [utf8] in E; [injection E as <-; split; intros []|].
  destruct (utf8_char c) as [x|e|] eqn:E1; [|discriminate|discriminate]. cbn [bind] in E. destruct (utf8 t) as [y|e|] eqn:E2; [|discriminate|discriminate]. cbn [bind] in E. injection E as <-.
  destruct (utf8_char_ends _ _ E1 H1 H2). destruct (IH y eq_refl). split; intro Hi; apply in_app_or in Hi as [Hi|Hi]; contradiction.
Qed.
(** a text can be read back: the first byte tells the length *)
Definition width (b : N) : nat := if (b <? 128)%N then 1 else if (b <? 224)%N then 2 else if (b <? 240)%N then 3 else 4.
Lemma utf8_char_width c b : (c < 1114112)%N -> utf8_char c = Ret b -> exists x t, b = x :: t /\ List.length b = width x.
Proof.
  intros Hc. unfold utf8_char, width. destruct (N.ltb_spec c 128) as [H|H]; [intro E; apply ret_inj in E; subst b; exists c, []; split; [reflexivity|]; destruct (N.ltb_spec c 128); [reflexivity|lia]|].
  assert (D : forall k, (k <> 0)%N -> (c / k <= c)%N) by (intros k Hk; apply N.div_le_upper_bound; [exact Hk|nia]).
  destruct (N.ltb_spec c 2048) as [H1|H1].
  - intro E. apply ret_inj in E. subst b. do 2 eexists. split; [reflexivity|]. assert ((c / 64 < 32)%N) by (apply N.div_lt_upper_bound; lia).
    destruct (N.ltb_spec (192 + c / 64) 128); [lia|]. destruct (N.ltb_spec (192 + c / 64) 224); [reflexivity|lia].
  - destruct (_ && _); [discriminate|]. destruct (N.ltb_spec c 65536) as [H2|H2]; intro E; apply ret_inj in E; subst b; do 2 eexists; (split; [reflexivity|]).
    + assert ((c / 4096 < 16)%N) by (apply N.div_lt_upper_bound; lia). destruct (N.ltb_spec (224 + c / 4096) 128); [lia|]. destruct (N.ltb_spec (224 + c / 4096) 224); [lia|]. destruct (N.ltb_spec (224 + c / 4096) 240); [reflexivity|lia].
    + destruct (N.ltb_spec (240 + c / 262144) 128); [lia|]. destruct (N.ltb_spec (240 + c / 262144) 224); [lia|]. destruct (N.ltb_spec (240 + c / 262144) 240); [lia|reflexivity].
Qed.
Lemma utf8_char_inj c d b : (c < 1114112)%N -> (d < 1114112)%N -> utf8_char c = Ret b -> utf8_char d = Ret b -> c = d.
Proof.
  intros Hc Hd. unfold utf8_char.
  assert (M : forall k x y, (k <> 0)%N -> (x / k = y / k)%N -> (x mod k = y mod k)%N -> x = y) by (intros k x y Hk E1 E2; rewrite (N.div_mod x k Hk), (N.div_mod y k Hk), E1, E2; reflexivity).
  assert (Q : forall x a, (x / 64 / a = x / (64 * a))%N) by (intros; destruct (N.eq_dec a 0) as [->|]; [rewrite N.mul_0_r; destruct (x / 64)%N, x; reflexivity|apply N.div_div; lia]).
  destruct (N.ltb_spec c 128); [|destruct (N.ltb_spec c 2048); [|destruct ((55296 <=? c)%N && (c <=? 57343)%N); [discriminate|destruct (N.ltb_spec c 65536)]]];
    (destruct (N.ltb_spec d 128); [|destruct (N.ltb_spec d 2048); [|destruct ((55296 <=? d)%N && (d <=? 57343)%N); [discriminate|destruct (N.ltb_spec d 65536)]]]);
    intros E1 E2; rewrite <- E2 in E1; clear E2; apply ret_inj in E1; repeat (apply cons_eq in E1 as [? E1]); try discriminate E1; try assumption.
  - apply (M 64%N); lia.
  - apply (M 64%N); [lia| |lia]. apply (M 64%N); [lia| |lia]. rewrite !Q. change (64 * 64)%N with 4096%N. lia.
  - apply (M 64%N); [lia| |lia]. apply (M 64%N); [lia| |lia]. rewrite !Q. change (64 * 64)%N with 4096%N. apply (M 64%N); [lia| |lia].
    rewrite !N.div_div by lia. change (4096 * 64)%N with 262144%N. lia.
Qed.
Lemma utf8_inj t : forall u b, code_points t -> code_points u -> utf8 t = Ret b -> utf8 u = Ret b -> t = u.
Proof.
  assert (S : forall c t b, utf8 (c :: t) = Ret b -> exists x y, utf8_char c = Ret x /\ utf8 t = Ret y /\ b = x ++ y).
  { intros c l b E. cbn [utf8] in E. destruct (utf8_char c) as [x|e|]; [|discriminate|discriminate]. cbn [bind] in E. destruct (utf8 l) as [y|e|]; [|discriminate|discriminate]. cbn [bind] in E. injection E as <-. eauto. }
  assert (N : forall c, (c < 1114112)%N -> utf8_char c <> Ret []) by (intros c Hc E; destruct (utf8_char_width _ _ Hc E) as (x & l & E' & _); discriminate).
  induction t as [|c t IH]; intros [|d u] b Ht Hu E1 E2; [reflexivity| | |].
  - injection E1 as <-. apply S in E2 as (x & y & Ex & Ey & E). symmetry in E. apply app_eq_nil in E as [-> ->]. inversion Hu; subst. destruct (N d); assumption.
  - injection E2 as <-. apply S in E1 as (x & y & Ex & Ey & E). symmetry in E. apply app_eq_nil in E as [-> ->]. inversion Ht; subst. destruct (N c); assumption.
  - apply S in E1 as (x & y & Ex & Ey & ->). apply S in E2 as (x' & y' & Ex' & Ey' & E). inversion Ht as [|? ? Hc Ht']; subst. inversion Hu as [|? ? Hd Hu']; subst.
    destruct (utf8_char_width _ _ Hc Ex) as (p & q & -> & L1). destruct (utf8_char_width _ _ Hd Ex') as (p' & q' & -> & L2). pose proof E as E0. cbn [app] in E0. injection E0 as -> _.
    assert (X : p' :: q = p' :: q').
    { apply (f_equal (firstn (width p'))) in E. rewrite !firstn_app, <- L2 in E. rewrite L2, <- L1, Nat.sub_diag, !firstn_O, !app_nil_r, firstn_all in E. rewrite L1, <- L2, firstn_all in E. exact E. }
    rewrite X in *. apply app_inv_head in E. subst y'. f_equal; [exact (utf8_char_inj _ _ _ Hc Hd Ex Ex')|exact (IH u y Ht' Hu' Ey Ey')].
Qed.
Lemma join_cons (sep a b : bytes) (ls : list bytes) : join sep (a :: b :: ls) = a ++ sep ++ join sep (b :: ls). Proof. reflexivity. Qed.
Lemma utf8_join ls bs : Forall2 (fun t b => utf8 t = Ret b) ls bs -> utf8 (join CRLF ls) = Ret (join CRLF bs).
Proof.
  induction 1 as [|t b ls bs E F IH]; [reflexivity|]. destruct F as [|t' b' ls bs E' F]; [exact E|]. rewrite !join_cons, !utf8_app, E, IH. reflexivity.
Qed.
Lemma crlf_first (a b u v : bytes) : (forall x y, a <> x ++ CRLF ++ y) -> (forall x y, b <> x ++ CRLF ++ y) -> ~ In 13%N a -> a ++ CRLF ++ u = b ++ CRLF ++ v -> a = b /\ u = v.
Proof.
  intros _ Hb. revert b Hb. induction a as [|c a IH]; intros [|d b] Hb Ha E.
  - split; [reflexivity|]. exact (app_inv_head CRLF _ _ E).
  - cbn [app] in E. injection E as <- E. destruct b as [|d b]; [discriminate|]. injection E as <- E. destruct (Hb [] b eq_refl).
  - cbn [app] in E. injection E as -> E. destruct Ha. left. reflexivity.
  - cbn [app] in E. injection E as -> E. destruct (IH b) as [-> ->]; [|intro Hi; apply Ha; right; exact Hi|exact E|split; reflexivity].
    intros x y ->. apply (Hb (d :: x) y). reflexivity.
Qed.
Lemma lines_unique ls : Forall (fun l : bytes => ~ In 13%N l) ls -> ls <> [] -> forall ms, crlf_lines (join CRLF ls) ms -> ms = ls.
Proof.
  assert (NC : forall l : bytes, ~ In 13%N l -> forall x y, l <> x ++ CRLF ++ y) by (intros l H x y ->; apply H, in_or_app; right; left; reflexivity).
  induction ls as [|l ls IH]; [contradiction|]. intros Hf _ ms (Hn & Ej & Hm). inversion Hf as [|? ? Hl Hf']; subst. destruct ms as [|m ms]; [contradiction|]. inversion Hm as [|? ? Hm1 Hm2]; subst.
  destruct ls as [|l2 ls].
  - destruct ms as [|m2 ms]; [cbn [join] in Ej; subst; reflexivity|]. rewrite join_cons in Ej. change (join CRLF [l]) with l in Ej. destruct (NC l Hl m (join CRLF (m2 :: ms))). symmetry. exact Ej.
  - rewrite join_cons in Ej. destruct ms as [|m2 ms]; [cbn [join] in Ej; destruct (Hm1 l (join CRLF (l2 :: ls))); exact Ej|]. rewrite join_cons in Ej. symmetry in Ej. apply crlf_first in Ej; [|apply NC; exact Hl|exact Hm1|exact Hl].
    destruct Ej as [-> Ej]. f_equal. apply IH; [exact Hf'|discriminate|]. split; [discriminate|]. split; [symmetry; exact Ej|exact Hm2].
Qed.
(** ** C82 *)
(** what the warcinfo record says: six lines, from which host name and options can be read back - if they hold no line ends *)
Theorem C82_fields : forall host desc op pub aud content, warcinfo_fields host desc op pub aud = Ret content ->
  Forall plain_text [host; desc; op; pub; aud] ->
  exists h d o p a, Forall2 (fun t b => utf8 t = Ret b) [host; desc; op; pub; aud] [h; d; o; p; a] /\
    forall ls, crlf_lines content ls <->
      ls = [B "software: hanzo.arc2warc"; B "hostname: " ++ h; B "description: " ++ d; B "operator: " ++ o; B "publisher: " ++ p; B "audience: " ++ a].
Proof.
  intros host desc op pub aud content E Hp. unfold warcinfo_fields in E.
  set (ts := [B "software: hanzo.arc2warc"; B "hostname: " ++ host; B "description: " ++ desc; B "operator: " ++ op; B "publisher: " ++ pub; B "audience: " ++ aud]) in *.
  assert (A : forall l t, encodable (l ++ t) -> encodable t) by (intros l t H; apply Forall_app in H as [_ H]; exact H).
  assert (K : encodable (join CRLF ts)) by (apply utf8_iff; eauto).
  assert (K5 : Forall encodable [host; desc; op; pub; aud]).
  { unfold ts in K. rewrite !join_cons in K. repeat (apply A in K). 
    assert (J : forall l m, encodable (l ++ m) -> encodable l) by (intros l m H; apply Forall_app in H as [H _]; exact H).
    assert (Q : encodable (join CRLF ts)) by (apply utf8_iff; eauto). unfold ts in Q. rewrite !join_cons in Q. apply A, A in Q.
    constructor; [apply J in Q; apply A in Q; exact Q|]. apply A, A in Q. constructor; [apply J in Q; apply A in Q; exact Q|]. apply A, A in Q. constructor; [apply J in Q; apply A in Q; exact Q|].
    apply A, A in Q. constructor; [apply J in Q; apply A in Q; exact Q|]. constructor; [exact K|constructor]. }
  repeat match goal with H : Forall encodable (_ :: _) |- _ => let H1 := fresh "K" in inversion H as [|? ? H1 ?]; subst; clear H; apply utf8_iff in H1 as [? ?] end.
  match goal with H1 : utf8 host = Ret ?h, H2 : utf8 desc = Ret ?d, H3 : utf8 op = Ret ?o, H4 : utf8 pub = Ret ?p, H5 : utf8 aud = Ret ?a |- _ =>
    exists h, d, o, p, a; rename H1 into Eh, H2 into Ed, H3 into Eo, H4 into Ep, H5 into Ea end.
  split; [repeat (constructor; [assumption|]); constructor|].
  assert (U : forall t u b, utf8 u = Ret b -> utf8 t = Ret t -> utf8 (t ++ u) = Ret (t ++ b)) by (intros t u b H1 H2; rewrite utf8_app, H1, H2; reflexivity).
  match goal with |- forall ls, _ <-> ls = ?l => set (bs := l) end.
  assert (F : Forall2 (fun t b => utf8 t = Ret b) ts bs) by (repeat (constructor; [first [reflexivity|apply U; [assumption|reflexivity]]|]); constructor).
  apply utf8_join in F. rewrite F in E. apply ret_inj in E. subst content.
  assert (N : Forall (fun l : bytes => ~ In 13%N l) bs).
  { inversion Hp as [|? ? P1 Hp1]; subst. inversion Hp1 as [|? ? P2 Hp2]; subst. inversion Hp2 as [|? ? P3 Hp3]; subst. inversion Hp3 as [|? ? P4 Hp4]; subst. inversion Hp4 as [|? ? P5 Hp5]; subst.
    assert (V : forall s u b, utf8 u = Ret b -> plain_text u -> ~ In 13%N s -> ~ In 13%N (s ++ b)) by (intros s u b H1 H2 H3 Hi; apply in_app_or in Hi as [Hi|Hi]; [exact (H3 Hi)|exact (proj1 (utf8_plain _ _ H1 H2) Hi)]).
    assert (W : forall s : bytes, existsb (N.eqb 13) s = false -> ~ In 13%N s) by (intros s H Hi; assert (existsb (N.eqb 13) s = true) by (apply existsb_exists; exists 13%N; split; [exact Hi|reflexivity]); congruence).
    constructor; [apply W; reflexivity|]. repeat (constructor; [eapply V; [eassumption|assumption|apply W; reflexivity]|]). constructor. }
  intro ls. split; [exact (lines_unique bs N ltac:(discriminate) ls)|]. intros ->. split; [discriminate|]. split; [reflexivity|]. apply Forall_forall. intros l Hl u v Ex.
  rewrite Forall_forall in N. apply (N l Hl). rewrite Ex. apply in_or_app. right. left. reflexivity.
Qed.
(** the encoding can be read back, and only surrogates (names that are not UTF-8) make it fail *)
Theorem C82_encoding : (forall t u b, code_points t -> code_points u -> utf8 t = Ret b -> utf8 u = Ret b -> t = u) /\
  (forall host desc op pub aud, (exists b, warcinfo_fields host desc op pub aud = Ret b) <-> Forall encodable [host; desc; op; pub; aud]).
Proof.
  split; [exact utf8_inj|]. intros host desc op pub aud. unfold warcinfo_fields. rewrite <- utf8_iff. unfold encodable. rewrite !join_cons. cbn [join]. rewrite !Forall_app.
  assert (C : Forall (fun c : N => (c < 55296 \/ 57343 < c)%N) CRLF) by (repeat (constructor; [lia|]); constructor).
  split.
  - intros (_ & _ & (_ & H1) & _ & (_ & H2) & _ & (_ & H3) & _ & (_ & H4) & _ & _ & H5). repeat (constructor; [assumption|]). constructor.
  - intro H. inversion H as [|? ? P1 Hp1]; subst. inversion Hp1 as [|? ? P2 Hp2]; subst. inversion Hp2 as [|? ? P3 Hp3]; subst. inversion Hp3 as [|? ? P4 Hp4]; subst. inversion Hp4 as [|? ? P5 Hp5]; subst.
    assert (D : forall s : text, forallb (fun c => c <? 55296)%N s = true -> Forall (fun c : N => (c < 55296 \/ 57343 < c)%N) s) by (intros s Hs; apply Forall_forall; intros c Hi; rewrite forallb_forall in Hs; left; apply N.ltb_lt, Hs; exact Hi).
    repeat match goal with |- _ /\ _ => split end; first [assumption|apply D; reflexivity].
Qed.
(** and it is UTF-8, as RFC 3629 has it: the first byte tells the width, the bytes hold the bits of the code point from the
    highest, and the shortest form is used *)
Inductive utf8_form : N -> bytes -> Prop :=
| form1 c : (c < 128)%N -> utf8_form c [c]
| form2 c x y : (c = x * 64 + y /\ x < 32 /\ y < 64 /\ 128 <= c)%N -> utf8_form c [192 + x; 128 + y]%N
| form3 c x y z : (c = (x * 64 + y) * 64 + z /\ x < 16 /\ y < 64 /\ z < 64 /\ 2048 <= c)%N -> utf8_form c [224 + x; 128 + y; 128 + z]%N
| form4 c w x y z : (c = ((w * 64 + x) * 64 + y) * 64 + z /\ w < 8 /\ x < 64 /\ y < 64 /\ z < 64 /\ 65536 <= c)%N -> utf8_form c [240 + w; 128 + x; 128 + y; 128 + z]%N.
Theorem C82_utf8 : forall t b, code_points t ->
  (utf8 t = Ret b <-> encodable t /\ exists parts, Forall2 utf8_form t parts /\ b = concat parts).
Proof.
  assert (S : forall c x, (c < 1114112)%N -> utf8_char c = Ret x -> utf8_form c x).
  { intros c x Hc. unfold utf8_char. destruct (N.ltb_spec c 128); [intro E; apply ret_inj in E; subst x; constructor; assumption|].
    pose proof (N.div_mod' c 64) as D1. pose proof (N.mod_lt c 64 ltac:(lia)) as M1.
    pose proof (N.div_mod' (c / 64) 64) as D2. pose proof (N.mod_lt (c / 64) 64 ltac:(lia)) as M2. rewrite N.div_div in D2 by lia. change (64 * 64)%N with 4096%N in D2.
    pose proof (N.div_mod' (c / 4096) 64) as D3. pose proof (N.mod_lt (c / 4096) 64 ltac:(lia)) as M3. rewrite N.div_div in D3 by lia. change (4096 * 64)%N with 262144%N in D3.
    destruct (N.ltb_spec c 2048); [intro E; apply ret_inj in E; subst x; constructor; lia|]. destruct (_ && _); [discriminate|].
    destruct (N.ltb_spec c 65536); intro E; apply ret_inj in E; subst x; constructor; lia. }
  assert (F : forall t b, code_points t -> utf8 t = Ret b -> exists parts, Forall2 utf8_form t parts /\ b = concat parts).
  { induction t as [|c t IH]; intros b Hc; cbn [utf8]; [intro E; apply ret_inj in E; subst b; exists []; split; [constructor|reflexivity]|].
    inversion Hc as [|? ? Hc1 Hc2]; subst. destruct (utf8_char c) as [x|e|] eqn:E1; cbn [bind]; [|discriminate|discriminate].
    destruct (utf8 t) as [y|e|]; cbn [bind]; [|discriminate|discriminate]. intro E. apply ret_inj in E. subst b.
    destruct (IH y Hc2 eq_refl) as (ps & H1 & ->). exists (x :: ps). split; [constructor; [apply S; assumption|exact H1]|reflexivity]. }
  assert (U : forall c x y, utf8_form c x -> utf8_form c y -> x = y).
  { assert (L : forall a b y z, (y < 64 -> z < 64 -> a * 64 + y = b * 64 + z -> a = b /\ y = z)%N) by (intros; lia).
    intros c x y H1 H2; inversion H1; subst; inversion H2; subst;
    repeat match goal with H : _ /\ _ |- _ => destruct H end; try lia; try reflexivity; repeat (f_equal; try lia). }
  intros t b Hc. split.
  - intro E. split; [apply utf8_iff; eauto|]. apply F; assumption.
  - intros (He & ps & H & ->). apply utf8_iff in He as [b E]. rewrite E. destruct (F t b Hc E) as (qs & H' & ->). f_equal. f_equal.
    clear E Hc. revert qs H'. induction H as [|c p t ps H1 H2 IH]; intros qs H'; inversion H'; subst; [reflexivity|]. f_equal; [eapply U; eassumption|apply IH; assumption].
Qed.
(** without files, or with an option that cannot be encoded, nothing is written; an output file is there then *)
Theorem C82_nothing_to_do : forall gunzip http_gz uuid clock gzip host o files old e,
  (files = [] /\ e = Ret 2%Z) \/
  (files <> [] /\ ~ Forall encodable [host; op_description o; op_operator o; op_publisher o; op_audience o] /\ e = Raise EValueError) ->
  let r := a2w_main gunzip http_gz uuid clock gzip host o files old in
  rs_end r = e /\ rs_stdout r = [] /\ (no_output o -> rs_file r = old) /\
  (forall name, output_name o name -> rs_file r = Some (match old with Some b => b | None => [] end)).
Proof.
  intros gunzip hg uuid clock gzip host o files old e H.
  assert (X : forall e', e' = e -> let r := mkres e' [] (match match op_output o with Some ((_ :: _) as n) => Some n | _ => None end with
      Some _ => Some (match old with Some b => b | None => [] end) | None => old end) in
    rs_end r = e /\ rs_stdout r = [] /\ (no_output o -> rs_file r = old) /\
    (forall name, output_name o name -> rs_file r = Some (match old with Some b => b | None => [] end))).
  { intros e' ->. cbn zeta. cbn [rs_end rs_stdout rs_file]. split; [reflexivity|]. split; [reflexivity|]. split.
    - intros [-> | ->]; reflexivity.
    - intros name [-> Hn]. destruct name; [contradiction|reflexivity]. }
  destruct H as [[-> ->]|(Hf & Hn & ->)]; [apply X; reflexivity|]. unfold a2w_main. destruct files as [|f fs]; [contradiction|].
  destruct (warcinfo_fields host (op_description o) (op_operator o) (op_publisher o) (op_audience o)) as [b|x|] eqn:E.
  - exfalso. apply Hn. apply (proj2 C82_encoding). eauto.
  - apply X. assert (G : forall t x, utf8 t = Raise x -> x = EValueError).
    { induction t as [|c t IH]; [discriminate|]. intro y. cbn [utf8]. unfold utf8_char. destruct (_ <? _)%N; [|destruct (_ <? _)%N; [|destruct (_ && _); [intro Z; injection Z as <-; reflexivity|destruct (_ <? _)%N]]]; cbn [bind];
        (destruct (utf8 t) as [u|u|]; cbn [bind]; [discriminate|intro Z; apply IH; exact Z|discriminate]). }
    f_equal. exact (G _ _ E).
  - exfalso. assert (G : forall t, utf8 t <> Diverge).
    { induction t as [|c t IH]; [discriminate|]. cbn [utf8]. unfold utf8_char. destruct (_ <? _)%N; [|destruct (_ <? _)%N; [|destruct (_ && _); [discriminate|destruct (_ <? _)%N]]]; cbn [bind];
        (destruct (utf8 t) as [u|u|]; cbn [bind]; [discriminate|discriminate|exact IH]). }
    exact (G _ E).
Qed.
(** where the output goes *)
Theorem C82_output : forall gunzip http_gz uuid clock gzip host o files old fields gz resources responses e out, files <> [] ->
  warcinfo_fields host (op_description o) (op_operator o) (op_publisher o) (op_audience o) = Ret fields ->
  compressor gzip o gz -> text_prefixes (op_resource o) resources -> text_prefixes (op_response o) responses ->
  (no_output o -> arc2warc gunzip http_gz uuid clock gz false fields resources responses files = (e, out) ->
     a2w_main gunzip http_gz uuid clock gzip host o files old = mkres (omap (fun _ => 0%Z) e) out old) /\
  (forall name, output_name o name -> arc2warc gunzip http_gz uuid clock gz true fields resources responses files = (e, out) ->
     a2w_main gunzip http_gz uuid clock gzip host o files old = mkres (omap (fun _ => 0%Z) e) [] (Some (match old with Some b => b | None => [] end ++ out))).
Proof.
  intros gunzip hg uuid clock gzip host o files old fields gz res rsp e out Hn Hf Hc Hr1 Hr2.
  assert (P : forall g ps, text_prefixes g ps -> ps = map (fun _ => Arc2Warc.PText) g).
  { induction g as [|x g IH]; intros [|p ps] [L F]; try discriminate; [reflexivity|]. inversion F as [|? ? F1 F2]; subst. cbn [map]. f_equal. apply IH. split; [cbn in L; lia|exact F2]. }
  apply P in Hr1, Hr2. subst res rsp. destruct files as [|f fs]; [contradiction|]. destruct Hc as [C1 C2]. unfold a2w_main. rewrite Hf. split.
  - intros Ho E. assert (G : gz = if op_gzip o then Some gzip else None).
    { destruct (op_gzip o) eqn:Eg; [apply C1; left; exact Eg|]. apply C2. intros [H|(t & H & Hne)]; [congruence|]. destruct Ho as [Ho|Ho]; rewrite Ho in H; [discriminate|]. injection H as H. destruct Hne. symmetry. exact H. }
    destruct Ho as [-> | ->]; rewrite <- G, E; reflexivity.
  - intros name [Ho Hne] E. rewrite Ho. destruct name as [|c n]; [contradiction|]. assert (G : gz = if endswith (B ".gz") (c :: n) || op_gzip o then Some gzip else None).
    { destruct (endswith (B ".gz") (c :: n)) eqn:Ee; cbn [orb].
      - apply C1. right. apply endswith_iff in Ee as [t Et]. exists t. split; [rewrite <- Et; exact Ho|rewrite <- Et; discriminate].
      - destruct (op_gzip o) eqn:Eg; [apply C1; left; exact Eg|]. apply C2. intros [H|(t & H & _)]; [congruence|]. rewrite Ho in H. injection H as H.
        assert (X : endswith (B ".gz") (c :: n) = true) by (apply endswith_iff; exists t; exact H). congruence. }
    rewrite <- G, E. reflexivity.
Qed.
(** whatever happens, nothing the output file held is lost, and without -o no file is touched *)
Theorem C82_nothing_lost : forall gunzip http_gz uuid clock gzip host o files old,
  let r := a2w_main gunzip http_gz uuid clock gzip host o files old in
  (no_output o -> rs_file r = old) /\
  (forall name, output_name o name -> rs_stdout r = [] /\ exists new, rs_file r = Some (match old with Some b => b | None => [] end ++ new)).
Proof.
  intros gunzip hg uuid clock gzip host o files old r. subst r. unfold a2w_main. split.
  - intros [-> | ->]; (destruct files; [reflexivity|]; destruct (warcinfo_fields _ _ _ _ _); [|reflexivity|reflexivity]; destruct (arc2warc _ _ _ _ _ _ _ _ _ _); reflexivity).
  - intros [|c n] [-> Hne]; [contradiction|]. destruct files; [split; [reflexivity|exists []; cbn; rewrite app_nil_r; reflexivity]|].
    destruct (warcinfo_fields _ _ _ _ _); [|split; [reflexivity|exists []; cbn; rewrite app_nil_r; reflexivity]..].
    destruct (arc2warc _ _ _ _ _ _ _ _ _ _) as [e out]. split; [reflexivity|]. exists out. reflexivity.
Qed.
Section Nothing.
Variables (uuid : bytes -> bytes) (clock : nat -> datetime) (http_gz : bytes -> outcome bytes) (gz : option gzipper) (fields : bytes).
Lemma run_visits (ok : record -> Prop) (P : memory -> Prop) output resources responses :
  (forall s r len more x s', P s -> turns uuid clock http_gz gz output fields resources responses s r len more x s' -> e_end x = Ret tt ->
     ok r /\ P s' /\ exists p, piece len more = Some (p, e_text x, e_due x)) ->
  forall s names text out o s', a2w_run uuid clock http_gz gz output fields resources responses s names text out o s' -> P s -> o = Ret tt ->
    P s' /\ exists rs, visits names text rs /\ Forall ok rs.
Proof.
  intro HT. induction 1 as [s names text n names' Hf|s names text n e es names' Hf|s names text e names' Hf|s names text names' Hf|s names text n r len more names' x s' Hf Ht He|s names text n r len more names' x s' Hf Ht He Hl
    |s names text n r len more names' x s' body after out o s'' Hf Ht He Et Hd Hr IH]; intros HP Ho; try discriminate.
  - split; [exact HP|]. exists []. split; [econstructor; eassumption|constructor].
  - congruence.
  - destruct (HT _ _ _ _ _ _ HP Ht He) as (Hok & HP' & p & Ep). destruct (IH HP' Ho) as (HP'' & rs & Hv & Hrs). split; [exact HP''|]. exists (r :: rs). split; [|constructor; assumption].
    eapply visits_rec; eassumption.
Qed.
Lemma all_visits (ok : record -> Prop) (P : memory -> Prop) output resources responses :
  (forall s r len more x s', P s -> turns uuid clock http_gz gz output fields resources responses s r len more x s' -> e_end x = Ret tt ->
     ok r /\ P s' /\ exists p, piece len more = Some (p, e_text x, e_due x)) ->
  forall s texts out o, a2w_all uuid clock http_gz gz output fields resources responses s texts out o -> P s -> o = Ret tt ->
    Forall (fun t => exists rs, visits [] t rs /\ Forall ok rs) texts.
Proof.
  intro HT. induction 1 as [s|s text texts out o s' Hr Ho'|s text texts out out2 o s' Hr Ha IH]; intros HP Ho; [constructor|congruence|].
  destruct (run_visits ok P output resources responses HT _ _ _ _ _ _ Hr HP eq_refl) as (HP' & X). constructor; [exact X|exact (IH HP' Ho)].
Qed.
Lemma warc_copy_piece v hs d more : e_end (warc_copy gz v hs d more) = Ret tt -> exists p, piece (Some d) more = Some (p, e_text (warc_copy gz v hs d more), e_due (warc_copy gz v hs d more)).
Proof.
  unfold warc_copy. destruct (piece (Some d) more) as [[[p rest] d']|]; [|discriminate]. destruct ((d <? 0)%Z && negb (bytes_eqb p [])); [discriminate|]. intros _. exists p. reflexivity.
Qed.
Lemma turns_named resources responses s r len more x s' : fst s = None -> turns uuid clock http_gz gz true fields resources responses s r len more x s' -> e_end x = Ret tt ->
  a_warc_record r /\ fst s' = None /\ exists p, piece len more = Some (p, e_text x, e_due x).
Proof.
  intros Hs H He. inversion H as [v d Hc Hl|x0 s0 Hc Ha|v ls x0 s0 Hc Ha]; subst.
  - split; [exists v; exact Hc|]. split; [exact Hs|]. apply warc_copy_piece. exact He.
  - inversion Ha as [| | | |? ? ? ? ? ? ? o ? ? ? ? ? ? Hfail| |]; subst; try discriminate; [destruct o; [destruct Hfail|discriminate|discriminate]|]. congruence.
  - inversion Ha; subst; discriminate.
Qed.
Lemma tested_texts g url b : tested (map (fun _ : text => Arc2Warc.PText) g) url (Ret b) -> g = [] /\ b = false.
Proof.
  intro H. inversion H as [before p after t E|?|Hb Hn]; subst.
  - exfalso. assert (Hin : In (PBytes p) (map (fun _ : text => Arc2Warc.PText) g)) by (rewrite E; apply in_or_app; right; left; reflexivity). apply in_map_iff in Hin as (y & Ey & _). discriminate.
  - split; [|reflexivity]. destruct g as [|x g]; [reflexivity|]. destruct Hb. left. reflexivity.
Qed.
Lemma turns_prefixed output g1 g2 s r len more x s' : g1 <> [] \/ g2 <> [] ->
  turns uuid clock http_gz gz output fields (map (fun _ : text => Arc2Warc.PText) g1) (map (fun _ : text => Arc2Warc.PText) g2) s r len more x s' -> e_end x = Ret tt ->
  (a_warc_record r \/ a_filedesc_record r) /\ True /\ exists p, piece len more = Some (p, e_text x, e_due x).
Proof.
  intros Hg H He. inversion H as [v d Hc Hl|x0 s0 Hc Ha|v ls x0 s0 Hc Ha]; subst.
  - split; [left; exists v; exact Hc|]. split; [exact I|]. apply warc_copy_piece. exact He.
  - exfalso. inversion Ha as [| | | |? ? ? ? ? ? ? o ? ? ? ? ? ? Hfail| |url date text p rest d ct type ct' info H1 H2 H3 H4 H5 Hdec H6]; subst; try discriminate; [destruct o; [destruct Hfail|discriminate|discriminate]|].
    inversion Hdec; subst; repeat match goal with X : tested _ _ (Ret _) |- _ => apply tested_texts in X as [? ?] end; try discriminate; destruct Hg; contradiction.
  - split; [right; exists v, ls; exact Hc|]. split; [exact I|]. inversion Ha; subst; try discriminate. eexists. cbn [e_text e_due]. eassumption.
Qed.
End Nothing.
(** with an output name arc2warc succeeds only if there is nothing to convert: every record of the files is a WARC record *)
Theorem C82_output_converts_nothing : forall gunzip http_gz uuid clock gzip host o files texts old name,
  Forall2 (file_holds gunzip) files texts -> output_name o name ->
  rs_end (a2w_main gunzip http_gz uuid clock gzip host o files old) = Ret 0%Z ->
  Forall (fun t => exists rs, visits [] t rs /\ Forall a_warc_record rs) texts.
Proof.
  intros gunzip hg uuid clock gzip host o files texts old name Hf [Ho Hne] He. unfold a2w_main in He. rewrite Ho in He. destruct name as [|c n]; [contradiction|].
  destruct files as [|f fs]; [discriminate|]. destruct (warcinfo_fields _ _ _ _ _) as [fields|e|]; [|discriminate|discriminate].
  destruct (arc2warc _ _ _ _ _ _ _ _ _ _) as [e out] eqn:E. cbn [rs_end] in He. apply (proj2 (C79_any_files _ _ _ _ _ _ _ _ _ _ _ _ _ Hf)) in E.
  eapply (all_visits uuid clock hg _ fields a_warc_record (fun s => fst s = None)); [|exact E|reflexivity|destruct e as [[]|?|]; [reflexivity|discriminate|discriminate]].
  intros. eapply turns_named; eassumption.
Qed.
(** and with --resource or --response, only if there is no ARC record *)
Theorem C82_prefixes_convert_nothing : forall gunzip http_gz uuid clock gzip host o files texts old,
  Forall2 (file_holds gunzip) files texts -> op_resource o <> [] \/ op_response o <> [] ->
  rs_end (a2w_main gunzip http_gz uuid clock gzip host o files old) = Ret 0%Z ->
  Forall (fun t => exists rs, visits [] t rs /\ Forall (fun r => a_warc_record r \/ a_filedesc_record r) rs) texts.
Proof.
  intros gunzip hg uuid clock gzip host o files texts old Hf Hg He. unfold a2w_main in He. destruct files as [|f fs]; [discriminate|].
  destruct (warcinfo_fields _ _ _ _ _) as [fields|e|]; [|discriminate|discriminate].
  match type of He with context [arc2warc ?a ?b ?c ?d ?g ?h ?i ?j ?k ?l] => destruct (arc2warc a b c d g h i j k l) as [e out] eqn:E end.
  apply (proj2 (C79_any_files _ _ _ _ _ _ _ _ _ _ _ _ _ Hf)) in E.
  eapply (all_visits uuid clock hg _ fields (fun r => a_warc_record r \/ a_filedesc_record r) (fun _ => True)); [|exact E|exact I|].
  - intros s r len more x s' _ Ht Hx. eapply turns_prefixed; eassumption.
  - match type of He with rs_end (if ?b then _ else _) = _ => destruct b end; cbn [rs_end] in He; (destruct e as [[]|?|]; [reflexivity|discriminate|discriminate]).
Qed.
(** ** C82: concrete cases *)
Definition some_options (out : option text) : a2w_options := mkopts out false (B "my crawl") [233; 8364; 128512]%N [] [] [] [].
Definition warc_only : bytes := B "WARC/1.0" ++ CRLF ++ B "Content-Length: 1" ++ CRLF ++ CRLF ++ B "x" ++ CRLF ++ CRLF.
Definition marked : gzipper := mkgz (fun b => B "<" ++ b ++ B ">") (fun b => B "<" ++ b).
Example C82_cases :
  warcinfo_fields (B "h") (B "my crawl") [233; 8364; 128512]%N [] [] =
    Ret (join CRLF [B "software: hanzo.arc2warc"; B "hostname: h"; B "description: my crawl"; B "operator: " ++ [195; 169; 226; 130; 172; 240; 159; 152; 128]%N; B "publisher: "; B "audience: "]) /\
  warcinfo_fields (B "h") [56832]%N [] [] [] = Raise EValueError /\
  Forall2 (file_holds (fun x => x)) [mkin (B "w.warc") warc_only] [warc_only] /\ output_name (some_options (Some (B "o.warc.gz"))) (B "o.warc.gz") /\
  a2w_main (fun x => x) no_gz ex_uuid ex_clock marked (B "h") (some_options (Some (B "o.warc.gz"))) [mkin (B "w.warc") warc_only] (Some (B "old")) =
    mkres (Ret 0%Z) [] (Some (B "old" ++ marked warc_only)) /\
  a2w_main (fun x => x) no_gz ex_uuid ex_clock marked (B "h") (some_options None) [mkin (B "w.warc") warc_only] (Some (B "old")) = mkres (Ret 0%Z) warc_only (Some (B "old")) /\
  rs_end (a2w_main (fun x => x) no_gz ex_uuid ex_clock marked (B "h") (some_options (Some (B "o.warc"))) odd_files None) = Raise ETypeError /\
  a2w_main (fun x => x) no_gz ex_uuid ex_clock marked (B "h") (some_options (Some (B "o.warc"))) [] None = mkres (Ret 2%Z) [] (Some []).
Proof.
  split; [vm_compute; reflexivity|]. split; [vm_compute; reflexivity|]. split.
  { constructor; [|constructor]. left. split; [|split; [|reflexivity]]; intros t E; [|discriminate].
    assert (X : endswith (B ".gz") (B "w.warc") = true) by (apply endswith_iff; exists t; exact E). discriminate. }
  split; [split; [reflexivity|discriminate]|]. split; [vm_compute; reflexivity|]. split; [vm_compute; reflexivity|]. split; vm_compute; reflexivity.
Qed.
