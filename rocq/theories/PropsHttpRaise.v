(** C85: what a feed() that raised leaves behind *)
From Verif Require Export HttpPlant.
From Coq Require Import String List Lia ZArith.
Open Scope list_scope.

Section G.
Variable gz : bytes -> outcome bytes.
(** Calls of feed() on one parser, going on after exceptions: what each of them returned
    or raised, and the parser then.  (A call that does not end is the last one.) *)
Fixpoint x_run (m : msg) (calls : list bytes) : list (outcome bytes) * msg :=
  match calls with
  | [] => ([], m)
  | text :: rest =>
      match x_feed gz m text with
      | (Diverge, m') => ([Diverge], m')
      | (o, m') => let '(os, m'') := x_run m' rest in (o :: os, m'')
      end
  end.
(** a parser such calls lead to *)
Definition x_reached (m : msg) : Prop :=
  exists kind ign calls outs, x_run (parser_for kind ign) calls = (outs, m) /\ ~ In Diverge outs.
Lemma x_run_good calls : forall m outs m', x_run m calls = (outs, m') -> ~ In Diverge outs -> inv m -> tidy m -> inv m' /\ tidy m'.
Proof.
  induction calls as [|t calls IH]; intros m outs m' H Hd Hi Hy; cbn [x_run] in H; [injection H as <- <-; auto|].
  destruct (x_feed gz m t) as [o m1] eqn:E. assert (K : o <> Diverge -> inv m1 /\ tidy m1) by (intro X; split; [eapply x_feed_inv|eapply x_feed_tidy]; eassumption).
  destruct o as [r|e|]; [| |injection H as <- <-; exfalso; apply Hd; left; reflexivity];
    destruct (x_run m1 calls) as [os m2] eqn:E2; injection H as <- <-; (eapply IH; [exact E2|intro X; apply Hd; right; exact X| |]; apply K; discriminate).
Qed.
Lemma x_reached_good m : x_reached m -> inv m /\ tidy m.
Proof.
  intros (kind & ign & calls & outs & H & Hd). eapply x_run_good; [exact H|exact Hd| |apply fresh_tidy]. eapply fresh_inv, parser_fresh.
Qed.

(** On the parser of all other theorems, for calls that return. *)
Theorem C85_same_parser m text : x_reached m ->
  feed gz m text = match x_feed gz m text with (Ret r, m') => Ret (m', r) | (Raise e, _) => Raise e | (Diverge, _) => Diverge end.
Proof. intro H. rewrite <- (x_feed_plain gz m text (proj1 (x_reached_good m H))). destruct (x_feed gz m text) as [[r|e|] m']; reflexivity. Qed.

(** ** What is used and what is kept *)
Lemma slice_inside (p x : bytes) o z : (0 <= z)%Z -> (Z.of_nat o + z <= Z.of_nat (List.length p))%Z -> slice (p ++ x) o (Z.of_nat o + z) = slice p o (Z.of_nat o + z).
Proof.
  intros Hz Hl. unfold slice. replace (Z.of_nat o + z <? 0)%Z with false by lia. set (k := Z.to_nat (Z.of_nat o + z) - o). assert (Hk : k + o <= List.length p) by (unfold k; lia). clearbody k.
  rewrite skipn_app, firstn_app. replace (k - List.length (skipn o p)) with 0 by (rewrite skipn_length; lia). cbn [firstn]. apply app_nil_r.
Qed.
Lemma body_grows m buf o : Forall (fun e => (0 <= snd e)%Z) (m_chunks m) -> within m 0 -> get_body (set_buf m (m_buf m ++ buf) o) = get_body m.
Proof.
  unfold get_body, within. cbn [m_chunks m_buf set_buf]. intros Hn Hw. induction (m_chunks m) as [|[p z] l IH]; [reflexivity|]. cbn [map concat fst snd].
  inversion Hn as [|? ? N1 N2]; inversion Hw as [|? ? W1 W2]; subst. cbn [fst snd] in *. rewrite slice_inside by lia. f_equal. apply IH; assumption.
Qed.
(** no chunk was announced with a negative size *)
Definition sizes_ok (m : msg) : Prop := Forall (fun e => (0 <= snd e)%Z) (m_chunks m).

(** A call that raises has used its text up to and including some line end, and lost the
    rest; the parser is then what it was before that line end was fed, with the line end
    in the message: same phase, same start line, fields, trailers, interim responses and
    body.  Only after an announced gzip body that cannot be unpacked has it gone on to the
    body; only then do further calls raise at once, and those change nothing. *)
Theorem C85_what_is_kept m text e m' : x_reached m -> x_feed gz m text = (Raise e, m') ->
  complete m' = false /\
  ((exists used lost before, text = used ++ [LF] ++ lost /\ feed gz m used = Ret (before, []) /\
      get_message m' = get_message m ++ used ++ [LF] /\ get_message before = get_message m ++ used /\
      m_interim m' = m_interim before /\
      h_kind (m_head m') = h_kind (m_head before) /\ h_headers (m_head m') = h_headers (m_head before) /\ h_trailers (m_head m') = h_trailers (m_head before) /\
      (sizes_ok before -> get_body m' = get_body before) /\
      (headers_complete m' = headers_complete before /\ feed_predict m' = feed_predict before \/
       headers_complete before = false /\ headers_complete m' = true /\ feed_predict m' = WantAll /\ gzip_with_length (m_head m'))) \/
   (m' = m /\ e = EValueError /\ feed_predict m = WantAll)).
Proof.
  intros Hr H. destruct (x_reached_good m Hr) as [Hi Hy]. apply feed_raise in H; [|exact Hi]. destruct H as [(a & lost & m1 & h' & H)|[(a & lost & m1 & h' & H)|H]].
  - destruct H as (T & F & I1 & R & ->). assert (Hb : m_buf m1 = m_buf m ++ a).
    { pose proof (feed_bytes gz _ _ _ _ Hi F) as X. rewrite app_nil_r in X. apply X. intros (z & r & Y).
      destruct I1 as [[_ [I1 _]] _]. destruct R as [(M & _)|[(M & _)|[(_ & (q & Z) & _)|(_ & (q & w & Z) & _)]]]; [rewrite I1 in Y by auto|rewrite I1 in Y by auto|congruence..]; discriminate. }
    split; [unfold complete; cbn; destruct (m_mode m1) eqn:M; try reflexivity; exfalso; exact (refuses_mode _ _ _ _ R M)|]. left. exists a, lost, m1.
    destruct (refused_head _ _ _ _ R) as (K1 & K2 & K3 & K4). split; [exact T|]. split; [exact F|]. split; [unfold get_message; cbn; rewrite Hb, <- app_assoc; reflexivity|]. split; [exact Hb|].
    split; [reflexivity|]. split; [exact K1|]. split; [exact K2|]. split; [exact K3|]. split; [|left; auto]. intro Hs.
    assert (W : within m1 0).
    { apply feed_tidy in F; auto. destruct F as (_ & Fi & C0 & _). destruct R as [(M & _)|[(M & _)|[(_ & (q & Z) & _)|(_ & (q & w & Z) & _)]]].
      - unfold within. rewrite C0 by auto. constructor.
      - unfold within. rewrite C0 by auto. constructor.
      - unfold filled, slack in Fi. rewrite Z in Fi. exact Fi.
      - unfold filled, slack in Fi. rewrite Z in Fi. exact Fi. }
    change (get_body (set_head (took m1 [LF]) h')) with (get_body (set_buf m1 (m_buf m1 ++ [LF]) (List.length (m_buf m1 ++ [LF])))). apply body_grows; assumption.
  - destruct H as (T & F & I1 & M & A & Nl & -> & X). split; [reflexivity|]. left. exists a, lost, m1. assert (R1 : m_reader m1 = None) by (apply I1; auto). assert (Hb : m_buf m1 = m_buf m ++ a).
    { pose proof (feed_bytes gz _ _ _ _ Hi F) as Y. rewrite app_nil_r in Y. apply Y. intros (z & r & Z). congruence. }
    split; [exact T|]. split; [exact F|]. split; [unfold get_message; cbn; rewrite Hb, <- app_assoc; reflexivity|]. split; [exact Hb|]. split; [reflexivity|].
    assert (K : h_kind h' = h_kind (m_head m1) /\ h_headers h' = h_headers (m_head m1) /\ h_trailers h' = h_trailers (m_head m1)).
    { unfold add_header_line in A. replace (is_folded (pending m1 ++ [LF])) with false in A; [rewrite Nl in A; apply note_same in A; exact A|].
      unfold is_folded. cbn [in_list NEWLINES existsb] in Nl. apply Bool.orb_prop in Nl as [Nl|Nl]; [|rewrite Bool.orb_false_r in Nl]; apply bytes_eqb_eq in Nl; rewrite Nl; reflexivity. }
    destruct K as (K1 & K2 & K3). split; [exact K1|]. split; [exact K2|]. split; [exact K3|].
    apply feed_tidy in F; auto. destruct F as (_ & _ & C0 & _). specialize (C0 (or_intror M)). split.
    + intros _. unfold get_body. cbn. rewrite C0. reflexivity.
    + right. unfold headers_complete, feed_predict. cbn. rewrite M, R1. repeat split; try reflexivity; apply (begin_raise _ _ _ _ X).
  - destruct H as (-> & -> & M & R & _). split; [unfold complete; rewrite M; reflexivity|]. right. split; [reflexivity|]. split; [reflexivity|]. unfold feed_predict. rewrite M, R. reflexivity.
Qed.

(** The message after any such history is what the calls used, in order: a returning call
    all but what it gave back, a raising call its text up to some line end, or nothing. *)
Definition used_by (text : bytes) (o : outcome bytes) (used : bytes) : Prop :=
  match o with
  | Ret unread => text = used ++ unread
  | Raise _ => exists lost, text = used ++ lost /\ (used = [] \/ exists lines, used = lines ++ [LF])
  | Diverge => False
  end.
Inductive all_used : list bytes -> list (outcome bytes) -> list bytes -> Prop :=
| all_used_nil : all_used [] [] []
| all_used_call text o used texts os useds : used_by text o used -> all_used texts os useds -> all_used (text :: texts) (o :: os) (used :: useds).
Lemma zipped_stays m text o m' : inv m -> x_feed gz m text = (o, m') -> o <> Diverge -> zipped m -> zipped m'.
Proof.
  intros Hi H Ho Hz. destruct o as [r|e|]; [| |contradiction].
  - assert (F : feed gz m text = Ret (m', r)) by (rewrite <- x_feed_plain by exact Hi; rewrite H; reflexivity). apply feed_grows in F; [|exact Hi]. apply F, Hz.
  - exfalso. apply feed_raise in H; [|exact Hi]. assert (Q : exists a m1, feed gz m a = Ret (m1, []) /\ inv m1 /\ ~ zipped m1 \/ m_reader m = None).
    { destruct H as [(a & lost & m1 & h' & T & F & I1 & R & _)|[(a & lost & m1 & h' & T & F & I1 & M & _)|(_ & _ & _ & R & _)]].
      - exists a, m1. left. split; [exact F|]. split; [exact I1|]. intros (z & r & Y).
        destruct I1 as [[_ [I1 _]] _]. destruct R as [(M & _)|[(M & _)|[(_ & (q & Z) & _)|(_ & (q & w & Z) & _)]]]; [rewrite I1 in Y by auto|rewrite I1 in Y by auto|congruence..]; discriminate.
      - exists a, m1. left. split; [exact F|]. split; [exact I1|]. intros (z & r & Y). destruct I1 as [[_ [I1 _]] _]. rewrite I1 in Y by auto. discriminate.
      - exists [], m. right. exact R. }
    destruct Q as (a & m1 & [(F & _ & Nz)|R]); [apply feed_grows in F; [|exact Hi]; apply Nz, F, Hz|]. destruct Hz as (z & r & Hz). congruence.
Qed.
Lemma x_run_zipped calls : forall m outs m', x_run m calls = (outs, m') -> ~ In Diverge outs -> inv m -> zipped m -> zipped m'.
Proof.
  induction calls as [|t calls IH]; intros m outs m' H Hd Hi Hz; cbn [x_run] in H; [injection H as <- <-; exact Hz|].
  destruct (x_feed gz m t) as [o m1] eqn:E.
  destruct o as [r|e|]; [| |injection H as <- <-; exfalso; apply Hd; left; reflexivity];
    destruct (x_run m1 calls) as [os m2] eqn:E2; injection H as <- <-; (eapply IH; [exact E2|intro X; apply Hd; right; exact X| |]; [eapply x_feed_inv|eapply zipped_stays]; try eassumption; discriminate).
Qed.
Lemma x_run_used calls : forall m outs m', x_run m calls = (outs, m') -> ~ In Diverge outs -> inv m -> ~ zipped m' ->
  exists useds, all_used calls outs useds /\ m_buf m' = m_buf m ++ concat useds.
Proof.
  induction calls as [|t calls IH]; intros m outs m' H Hd Hi Hz; cbn [x_run] in H.
  - injection H as <- <-. exists []. split; [constructor|symmetry; apply app_nil_r].
  - destruct (x_feed gz m t) as [o m1] eqn:E.
    destruct o as [r|e|]; [| |injection H as <- <-; exfalso; apply Hd; left; reflexivity]; destruct (x_run m1 calls) as [os m2] eqn:E2; injection H as <- <-;
      (assert (Hd' : ~ In Diverge os) by (intro X; apply Hd; right; exact X)); (assert (I1 : inv m1) by (eapply x_feed_inv; [exact Hi|exact E|discriminate]));
      (destruct (IH _ _ _ E2 Hd' I1 Hz) as (us & U1 & U2)); (assert (Nz : ~ zipped m1) by (intro X; apply Hz; eapply x_run_zipped; eassumption)).
    + assert (F : feed gz m t = Ret (m1, r)) by (rewrite <- x_feed_plain by exact Hi; rewrite E; reflexivity).
      pose proof (feed_bytes gz _ _ _ _ Hi F Nz) as Eb. destruct (feed_grows gz _ _ _ _ Hi F) as [[u Hu] _]. exists (u :: us). split.
      * constructor; [|exact U1]. cbn [used_by]. rewrite Hu, <- app_assoc in Eb. symmetry. exact (app_inv_head _ _ _ Eb).
      * cbn [concat]. rewrite U2, Hu, <- app_assoc. reflexivity.
    + assert (Q : exists u, used_by t (Raise e) u /\ m_buf m1 = m_buf m ++ u).
      { apply feed_raise in E; [|exact Hi]. destruct E as [(a & lost & m3 & h' & T & F & I3 & R & ->)|[(a & lost & m3 & h' & T & F & I3 & M & _ & _ & -> & _)|(-> & _)]].
        - exists (a ++ [LF]). split; [exists lost; split; [rewrite <- app_assoc; exact T|right; exists a; reflexivity]|]. cbn. rewrite app_assoc. f_equal.
          pose proof (feed_bytes gz _ _ _ _ Hi F) as X. rewrite app_nil_r in X. apply X. exact Nz.
        - exists (a ++ [LF]). split; [exists lost; split; [rewrite <- app_assoc; exact T|right; exists a; reflexivity]|]. cbn. rewrite app_assoc. f_equal.
          pose proof (feed_bytes gz _ _ _ _ Hi F) as X. rewrite app_nil_r in X. apply X. exact Nz.
        - exists []. split; [exists t; auto|symmetry; apply app_nil_r]. }
      destruct Q as (u & Q1 & Q2). exists (u :: us). split; [constructor; assumption|]. cbn [concat]. rewrite U2, Q2, <- app_assoc. reflexivity.
Qed.
Theorem C85_message_is_what_was_used kind ign calls outs m : x_run (parser_for kind ign) calls = (outs, m) -> ~ In Diverge outs -> ~ gzip_with_length (m_head m) ->
  exists useds, all_used calls outs useds /\ get_message m = concat useds.
Proof.
  intros H Hd Hg. assert (Hi : inv (parser_for kind ign)) by (eapply fresh_inv, parser_fresh).
  destruct (x_run_used calls _ _ _ H Hd Hi) as (us & U1 & U2).
  - intro Hz. apply Hg. assert (K : inv m) by (eapply x_run_good; [exact H|exact Hd|exact Hi|apply fresh_tidy]). apply K. exact Hz.
  - exists us. split; [exact U1|]. unfold get_message. rewrite U2. destruct kind; reflexivity.
Qed.

(** ** A refused line is skipped *)
(** the next byte begins a line that is looked at *)
Definition at_line_start (m : msg) : Prop := m_off m = List.length (m_buf m) /\ feed_predict m = WantLine.
Definition blank_line (l : bytes) : Prop := l = [] \/ l = [CR].
(** the same message so far, except that [extra] was put in after [kept] *)
Definition same_but (kept extra : bytes) (m m' : msg) : Prop :=
  (exists rest, get_message m = kept ++ rest /\ get_message m' = kept ++ extra ++ rest) /\
  m_head m' = m_head m /\ m_interim m' = m_interim m /\ complete m' = complete m /\ headers_complete m' = headers_complete m /\ feed_predict m' = feed_predict m /\
  (sizes_ok m -> sizes_ok m' /\ get_body m' = get_body m /\ forall unzlib ungzip, decoded_message unzlib ungzip m' = decoded_message unzlib ungzip m).
Lemma blank_in l : in_list (l ++ [LF]) NEWLINES = true -> blank_line l.
Proof.
  intro H. unfold NEWLINES, in_list, existsb in H. apply Bool.orb_prop in H as [H|H]; [|rewrite Bool.orb_false_r in H]; apply bytes_eqb_eq in H.
  - right. change CRLF with ([CR] ++ [LF]) in H. apply app_inj_tail in H as [H _]. exact H.
  - left. change [LF] with ([] ++ [LF]) in H at 2. apply app_inj_tail in H as [H _]. exact H.
Qed.
Lemma not_blank_in l : ~ blank_line l -> in_list (l ++ [LF]) NEWLINES = false.
Proof. intro H. destruct (in_list (l ++ [LF]) NEWLINES) eqn:E; [exfalso; apply H, blank_in, E|reflexivity]. Qed.
Lemma x_header_other h line e h' : in_list line NEWLINES = false -> x_header_line h line = (Raise e, h') -> h' = h.
Proof.
  intros N H. unfold x_header_line in H. destruct (add_header_line h line); try discriminate. rewrite N in H. destruct (is_folded line); injection H as _ <-; reflexivity.
Qed.
(** what is looked at, however it was cut *)
Lemma line_start_pending m : at_line_start m -> pending m = [].
Proof. intros [H _]. unfold pending. rewrite H. apply skipn_all. Qed.
Definition takes_line (m : msg) (l : bytes) (e : exn) : Prop :=
  (m_mode m = Start /\ set_start_line (m_head m) (l ++ [LF]) = Raise e) \/
  (m_mode m = Headers /\ x_header_line (m_head m) (l ++ [LF]) = (Raise e, m_head m)) \/
  (m_mode m = Body /\ (exists r, m_reader m = Some (RChunk CStart false r)) /\ chunk_size (l ++ [LF]) = None /\ e = EValueError) \/
  (m_mode m = Body /\ (exists r, m_reader m = Some (RChunk CTrailer false r)) /\ add_trailer_line (m_head m) (l ++ [LF]) = Raise e).
Lemma takes_raise m p y lost l e : inv m -> pending m = [] -> no_lf l -> ~ blank_line l -> l = p ++ y -> takes_line m l e ->
  x_base gz (pushed m p) (y ++ LF :: lost) = (Raise e, took m (l ++ [LF])).
Proof.
  intros Hi Hp Hl Hb El Ht. pose proof Hi as [[Hw _] _]. assert (Hlp : no_lf p /\ no_lf y) by (split; intro X; apply Hl; rewrite El; apply in_or_app; auto). destruct Hlp as [Np Ny].
  pose proof (bwf_pushed m p Hw Np) as Hwp. pose proof (pending_pushed m p (proj1 Hw)) as Pp. rewrite Hp in Pp. cbn [app] in Pp.
  assert (Hs : split_once LF (y ++ LF :: lost) = Some (y, lost)) by (apply split_once_hit; exact Ny).
  assert (Hline : pending (pushed m p) ++ y ++ [LF] = l ++ [LF]) by (rewrite Pp, El, <- app_assoc; reflexivity).
  assert (Htk : took (pushed m p) (y ++ [LF]) = took m (l ++ [LF])) by (unfold took, pushed, set_buf; cbn [m_buf]; rewrite El, <- !app_assoc; reflexivity).
  assert (Nb : in_list (l ++ [LF]) NEWLINES = false) by (apply not_blank_in, Hb).
  destruct Ht as [(M & E)|[(M & E)|[(M & (r & R) & E & ->)|(M & (r & R) & E)]]].
  - rewrite (XB_start gz (pushed m p) _ M Hwp (mid_nonempty _ _ _)), Hs. cbv zeta. rewrite Hline, Nb. change (m_head (pushed m p)) with (m_head m). rewrite E, Htk. reflexivity.
  - rewrite (XB_headers gz (pushed m p) _ M Hwp (mid_nonempty _ _ _)), Hs. cbv zeta. rewrite Hline. change (m_head (pushed m p)) with (m_head m). rewrite E, Htk. destruct m; reflexivity.
  - rewrite XB_body; [|exact M|apply mid_nonempty]. unfold x_body. change (m_reader (pushed m p)) with (m_reader m). rewrite R. fold (XF (pushed m p) (y ++ LF :: lost)).
    rewrite (XF_start (pushed m p) false r _ Hwp R (mid_nonempty _ _ _)), Hs, Hline, E, Htk. reflexivity.
  - rewrite XB_body; [|exact M|apply mid_nonempty]. unfold x_body. change (m_reader (pushed m p)) with (m_reader m). rewrite R. fold (XF (pushed m p) (y ++ LF :: lost)).
    rewrite (XF_trailer (pushed m p) false r _ Hwp R (mid_nonempty _ _ _)), Hs. cbv zeta. rewrite Hline. change (m_head (pushed m p)) with (m_head m). rewrite E, Htk. reflexivity.
Qed.
Lemma takes_push m p q l e : inv m -> no_lf p -> no_lf q -> takes_line m l e -> x_base gz (pushed m p) q = (Ret [], pushed m (p ++ q)).
Proof.
  intros Hi Np Nq Ht. assert (Epp : pushed (pushed m p) q = pushed m (p ++ q)) by (unfold pushed, set_buf; cbn [m_buf m_off]; rewrite <- app_assoc; reflexivity).
  destruct q as [|c q0] eqn:Eq; [rewrite XB_nil, app_nil_r; reflexivity|]. assert (Hq : q <> []) by (rewrite Eq; discriminate). rewrite <- Eq in *. clear Eq.
  pose proof Hi as [[Hw _] _]. pose proof (bwf_pushed m p Hw Np) as Hwp. assert (Hs : split_once LF q = None) by (apply split_once_none; exact Nq).
  destruct Ht as [(M & E)|[(M & E)|[(M & (r & R) & E & ->)|(M & (r & R) & E)]]].
  - rewrite (XB_start gz (pushed m p) _ M Hwp Hq), Hs, Epp. reflexivity.
  - rewrite (XB_headers gz (pushed m p) _ M Hwp Hq), Hs, Epp. reflexivity.
  - rewrite XB_body; [|exact M|exact Hq]. unfold x_body. change (m_reader (pushed m p)) with (m_reader m). rewrite R. fold (XF (pushed m p) q).
    rewrite (XF_start (pushed m p) false r _ Hwp R Hq), Hs, Epp. cbv iota. rewrite creader_eta by exact R. reflexivity.
  - rewrite XB_body; [|exact M|exact Hq]. unfold x_body. change (m_reader (pushed m p)) with (m_reader m). rewrite R. fold (XF (pushed m p) q).
    rewrite (XF_trailer (pushed m p) false r _ Hwp R Hq), Hs, Epp. reflexivity.
Qed.
Lemma takes_mode m l e : takes_line m l e -> m_mode m <> End.
Proof. intros [(M & _)|[(M & _)|[(M & _)|(M & _)]]]; rewrite M; discriminate. Qed.
Lemma x_feed_base m text o m' : inv m -> x_base gz m text = (o, m') -> m_mode m' <> End -> x_feed gz m text = (o, m').
Proof.
  intros Hi E M. rewrite x_feed_resp by exact Hi. rewrite E. destruct o; try reflexivity. unfold x_resp. cbn [fst snd]. destruct (continue_dec m') as [C|C]; [exfalso; exact (not_end _ M C)|reflexivity].
Qed.
Lemma inv_pushed m p : inv m -> no_lf p -> inv (pushed m p).
Proof. intros [[A B] C] N. split; [split; [apply bwf_pushed; assumption|exact B]|exact C]. Qed.
(** a refused line at a line start *)
Lemma refused_takes m l e m' : inv m -> at_line_start m -> no_lf l -> ~ blank_line l -> x_feed gz m (l ++ [LF]) = (Raise e, m') -> takes_line m l e /\ m' = took m (l ++ [LF]).
Proof.
  intros Hi Ha Nl Nb H. pose proof (line_start_pending m Ha) as Hp. pose proof Hi as [[Hw [Hr [Hc Hh]]] _].
  assert (Hs : split_once LF (l ++ [LF]) = Some (l, [])) by (apply (split_once_hit LF l []); exact Nl).
  assert (Hne : l ++ [LF] <> []) by apply mid_nonempty.
  assert (Hline : pending m ++ l ++ [LF] = l ++ [LF]) by (rewrite Hp; reflexivity).
  assert (Bl : in_list (l ++ [LF]) NEWLINES = false) by (apply not_blank_in, Nb).
  assert (No : forall t m1, x_base gz m (l ++ [LF]) = (Ret t, m1) -> ~ continue_done m1 -> takes_line m l e /\ m' = took m (l ++ [LF])).
  { intros t m1 E N. rewrite x_feed_resp in H by exact Hi. rewrite E in H. unfold x_resp in H. cbn [fst snd] in H. destruct (continue_dec m1); [contradiction|discriminate]. }
  assert (Ra : forall e0 m1, x_base gz m (l ++ [LF]) = (Raise e0, m1) -> e0 = e /\ m1 = m').
  { intros e0 m1 E. rewrite x_feed_resp in H by exact Hi. rewrite E in H. injection H as <- <-. auto. }
  assert (Rd : forall m1, x_base gz m (l ++ [LF]) = (Diverge, m1) -> takes_line m l e /\ m' = took m (l ++ [LF])).
  { intros m1 E. rewrite x_feed_resp in H by exact Hi. rewrite E in H. discriminate. }
  destruct Ha as [_ Ha]. unfold feed_predict in Ha. destruct (m_mode m) eqn:M; try discriminate.
  - pose proof (XB_start gz m _ M Hw Hne) as E. rewrite Hs in E. cbv zeta in E. rewrite Hline, Bl in E. destruct (set_start_line (m_head m) (l ++ [LF])) as [h|e0|] eqn:Eh.
    + rewrite XB_nil in E. eapply No; [exact E|]. apply not_end. discriminate.
    + apply Ra in E as [<- <-]. split; [left; auto|reflexivity].
    + eapply Rd, E.
  - pose proof (XB_headers gz m _ M Hw Hne) as E. rewrite Hs in E. cbv zeta in E. rewrite Hline, Bl in E. destruct (x_header_line (m_head m) (l ++ [LF])) as [[u|e0|] h] eqn:Eh.
    + rewrite XB_nil in E. eapply No; [exact E|]. apply not_end. cbn. rewrite M. discriminate.
    + apply Ra in E as [<- <-]. pose proof (x_header_other _ _ _ _ Bl Eh) as ->. split; [right; left; auto|destruct m; reflexivity].
    + eapply Rd, E.
  - destruct (m_reader m) as [[c s r|r|z r]|] eqn:R; try discriminate. destruct (Hc _ _ _ eq_refl) as [Hcm Hcs].
    assert (Hb : has_body (m_head m) = true) by (apply Hh; discriminate).
    assert (N100 : forall m1, h_kind (m_head m1) = h_kind (m_head m) -> ~ continue_done m1).
    { intros m1 K [_ X]. unfold status in X. rewrite K in X. apply code100_no_body in X. congruence. }
    pose proof (XB_body gz m _ M Hne) as E. unfold x_body in E. rewrite R in E. fold (XF m (l ++ [LF])) in E. destruct c.
    + rewrite (XF_start m s r _ Hw R Hne), Hs, Hline in E. destruct (chunk_size (l ++ [LF])) as [k|] eqn:Ek.
      * cbn in E. eapply No; [exact E|]. apply N100. reflexivity.
      * destruct s; [|apply Ra in E as [<- <-]; split; [right; right; left; eauto 6|reflexivity]].
        exfalso. unfold x_raw in E. cbn [m_chunks set_chunks] in E. rewrite x_feed_resp in H by exact Hi. rewrite E in H. unfold x_resp in H. cbn [fst snd] in H.
        match type of H with context [continue_dec ?q] => destruct (continue_dec q) as [C|C] end; [|discriminate]. apply (N100 _ eq_refl C).
    + destruct Hcs as [X| ->]; [discriminate|]. destruct (Z.eqb_spec r 0) as [->|Hz]; [|discriminate].
      rewrite (XF_chunk_end m false _ Hw R Hne), Hs in E. cbn in E. eapply No; [exact E|]. apply N100. reflexivity.
    + destruct Hcs as [X| ->]; [discriminate|]. rewrite (XF_trailer m false r _ Hw R Hne), Hs in E. cbv zeta in E. rewrite Hline, Bl in E. destruct (add_trailer_line (m_head m) (l ++ [LF])) as [h|e0|] eqn:Eh.
      * cbn in E. eapply No; [exact E|]. apply N100. cbn. apply trailer_keeps in Eh as [Eh _]. exact Eh.
      * apply Ra in E as [<- <-]. split; [right; right; right; eauto 6|reflexivity].
      * eapply Rd, E.
    + discriminate.
Qed.
(** Fed in any pieces, with anything behind it in the last one, the line is refused in the
    same way. *)
Theorem C85_refused_in_any_pieces m l e m' : x_reached m -> at_line_start m -> no_lf l -> ~ blank_line l -> x_feed gz m (l ++ [LF]) = (Raise e, m') ->
  forall pieces last lost, concat pieces ++ last = l -> x_run m (pieces ++ [last ++ [LF] ++ lost]) = (map (fun _ => Ret []) pieces ++ [Raise e], m').
Proof.
  intros Hr Ha Nl Nb H. destruct (x_reached_good m Hr) as [Hi _]. destruct (refused_takes m l e m' Hi Ha Nl Nb H) as [Ht ->]. pose proof (line_start_pending m Ha) as Hp.
  assert (G : forall pieces p last lost, p ++ concat pieces ++ last = l -> x_run (pushed m p) (pieces ++ [last ++ [LF] ++ lost]) = (map (fun _ => Ret []) pieces ++ [Raise e], took m (l ++ [LF]))).
  { induction pieces as [|q pieces IH]; intros p last lost El; cbn [app concat x_run map] in *.
    - assert (Np : no_lf p) by (intro X; apply Nl; rewrite <- El; apply in_or_app; auto).
      rewrite (x_feed_base (pushed m p) (last ++ LF :: lost) (Raise e) (took m (l ++ [LF]))); [reflexivity|apply inv_pushed; assumption|apply takes_raise; auto|exact (takes_mode _ _ _ Ht)].
    - assert (Np : no_lf p) by (intro X; apply Nl; rewrite <- El; apply in_or_app; auto).
      assert (Nq : no_lf q) by (intro X; apply Nl; rewrite <- El; apply in_or_app; right; apply in_or_app; left; apply in_or_app; auto).
      rewrite (x_feed_base (pushed m p) q (Ret []) (pushed m (p ++ q))); [|apply inv_pushed; assumption|apply (takes_push m p q l e); auto|exact (takes_mode _ _ _ Ht)].
      rewrite IH by (rewrite <- El, <- !app_assoc; reflexivity). reflexivity. }
  intros pieces last lost El. specialize (G pieces [] last lost El). rewrite pushed_nil in G. exact G.
Qed.
(** running two planted parsers *)
Lemma plant_run calls : forall old ints c, kept old c -> exists outs c', kept old c' /\ forall b', x_run (plant b' old ints c) calls = (outs, plant b' old ints c').
Proof.
  induction calls as [|t calls IH]; intros old ints c Hk; cbn [x_run]; [exists [], c; auto|].
  assert (F : forall b', x_feed gz (plant b' old ints c) t = xp b' old ints (x_feed gz c t) /\ kept old (snd (x_feed gz c t))) by (intro b'; apply x_feed_plant; exact Hk).
  destruct (x_feed gz c t) as [o c1]. cbn [snd] in F. destruct o as [r|e|].
  - destruct (IH old ints c1 (proj2 (F []))) as (outs & c' & K & R). exists (Ret r :: outs), c'. split; [exact K|]. intro b'. rewrite (proj1 (F b')). unfold xp. cbn [fst snd]. rewrite R. reflexivity.
  - destruct (IH old ints c1 (proj2 (F []))) as (outs & c' & K & R). exists (Raise e :: outs), c'. split; [exact K|]. intro b'. rewrite (proj1 (F b')). unfold xp. cbn [fst snd]. rewrite R. reflexivity.
  - exists [Diverge], c1. split; [exact (proj2 (F []))|]. intro b'. rewrite (proj1 (F b')). reflexivity.
Qed.
Lemma plant_body p x old ints c : Forall (fun e => (0 <= snd e)%Z) (old ++ m_chunks c) -> Forall (fun e => (Z.of_nat (fst e) + snd e <= Z.of_nat (List.length p))%Z) old ->
  get_body (plant (p ++ x) old ints c) = concat (map (fun q => slice p (fst q) (Z.of_nat (fst q) + snd q)) old) ++ get_body c.
Proof.
  intros Hn Hw. apply Forall_app in Hn as [N1 N2]. unfold get_body at 1. cbn [plant m_chunks m_buf]. rewrite map_app, concat_app. f_equal.
  - rewrite <- app_assoc. induction old as [|[o z] old IH]; [reflexivity|]. cbn [map concat fst snd]. inversion N1; inversion Hw; subst. cbn [fst snd] in *. rewrite slice_inside by lia. f_equal. apply IH; assumption.
  - exact (shift_body (p ++ x) [] c N2).
Qed.
(** From then on the parser does exactly what it would have done had the line never been
    fed: the same results and exceptions, whatever is fed and however often it raises, and
    in the end the same message, except that the line is in its text. *)
Theorem C85_refused_line_is_skipped m l e m' : x_reached m -> at_line_start m -> no_lf l -> ~ blank_line l -> x_feed gz m (l ++ [LF]) = (Raise e, m') ->
  forall calls, exists outs n n', x_run m calls = (outs, n) /\ x_run m' calls = (outs, n') /\ same_but (get_message m) (l ++ [LF]) n n'.
Proof.
  intros Hr Ha Nl Nb H calls. destruct (x_reached_good m Hr) as [Hi Hy]. destruct (refused_takes m l e m' Hi Ha Nl Nb H) as [Ht ->].
  set (core := mkmsg [] 0 (m_head m) [] (m_mode m) (m_reader m) []). set (p := m_buf m). set (old := m_chunks m). set (ints := m_interim m).
  assert (E1 : m = plant p old ints core).
  { unfold plant, core, p, old, ints. cbn [m_buf m_off m_head m_chunks m_mode m_reader m_interim map]. rewrite !app_nil_r, Nat.add_0_r, <- (proj1 Ha). symmetry. apply msg_eta. }
  assert (E2 : took m (l ++ [LF]) = plant (p ++ l ++ [LF]) old ints core).
  { unfold plant, core, took, set_buf, p, old, ints. cbn [m_buf m_off m_head m_chunks m_mode m_reader m_interim map]. rewrite !app_nil_r, Nat.add_0_r. reflexivity. }
  assert (W : Forall (fun e => (Z.of_nat (fst e) + snd e <= Z.of_nat (List.length p))%Z) old).
  { destruct Hy as (_ & Fi & C0 & _). destruct Ht as [(M & _)|[(M & _)|[(M & (r & R) & _)|(M & (r & R) & _)]]].
    - unfold old. rewrite C0 by auto. constructor.
    - unfold old. rewrite C0 by auto. constructor.
    - unfold filled, within, slack in Fi. rewrite R in Fi. unfold old, p. eapply Forall_impl; [|exact Fi]. intros a X. cbv beta in X. rewrite Z.add_0_r in X. exact X.
    - unfold filled, within, slack in Fi. rewrite R in Fi. unfold old, p. eapply Forall_impl; [|exact Fi]. intros a X. cbv beta in X. rewrite Z.add_0_r in X. exact X. }
  assert (K : kept old core).
  { destruct Hy as (_ & _ & C0 & _ & Bo & _). destruct Ht as [(M & _)|[(M & _)|Ht]]; [left; apply C0; auto|left; apply C0; auto|right].
    assert (Q : m_mode m = Body /\ off m) by (destruct Ht as [(M & (r & R) & _)|(M & (r & R) & _)]; (split; [exact M|eexists _, _; exact R])). destruct Q as [M Q].
    split; [left; split; [exact M|exact Q]|]. intro X. apply code100_no_body in X. cbn in X. rewrite Bo in X by exact M. discriminate. }
  destruct (plant_run calls old ints core K) as (outs & c' & K' & R). exists outs, (plant p old ints c'), (plant (p ++ l ++ [LF]) old ints c').
  split; [rewrite E1 at 1; apply R|]. split; [rewrite E2; apply R|]. split; [exists (m_buf c'); split; [reflexivity|unfold get_message; cbn; rewrite <- !app_assoc; reflexivity]|].
  split; [reflexivity|]. split; [reflexivity|]. split; [reflexivity|]. split; [reflexivity|]. split; [reflexivity|]. intro Hs.
  assert (N : Forall (fun e => (0 <= snd e)%Z) (old ++ m_chunks c')).
  { unfold sizes_ok in Hs. cbn [plant m_chunks] in Hs. apply Forall_app in Hs as [S1 S2]. apply Forall_app. split; [exact S1|]. rewrite Forall_map in S2. exact S2. }
  assert (Bd : get_body (plant (p ++ l ++ [LF]) old ints c') = get_body (plant p old ints c')).
  { rewrite (plant_body p (l ++ [LF]) old ints c' N W). rewrite <- (plant_body p [] old ints c' N W). rewrite app_nil_r. reflexivity. }
  split; [|split; [exact Bd|]].
  - unfold sizes_ok. cbn [plant m_chunks]. apply Forall_app in N as [S1 S2]. apply Forall_app. split; [exact S1|]. rewrite Forall_map. exact S2.
  - intros uz ug. unfold decoded_message. rewrite Bd. cbn [plant m_head m_chunks]. rewrite !map_app, !map_map. reflexivity.
Qed.

(** ** A body announced as gzip that cannot be unpacked *)
(** The parser is stuck for good: it has no body, every further non-empty text raises
    ValueError and leaves no trace, and close() calls the message complete. *)
Theorem C85_bad_gzip_is_final m text e m' : x_reached m -> x_feed gz m text = (Raise e, m') -> feed_predict m <> WantAll -> feed_predict m' = WantAll ->
  get_body m' = [] /\ (forall calls, x_run m' calls = (map (fun t => match t with [] => Ret [] | _ => Raise EValueError end) calls, m')) /\
  complete (close m') = true /\ get_body (close m') = [] /\ get_message (close m') = get_message m'.
Proof.
  intros Hr H Hm Hm'. destruct (x_reached_good m Hr) as [Hi Hy]. assert (I' : inv m') by (eapply x_feed_inv; [exact Hi|exact H|discriminate]).
  apply feed_raise in H; [|exact Hi]. destruct H as [(a & lost & m1 & h' & T & F & I1 & R & ->)|[(a & lost & m1 & h' & T & F & I1 & M & A & Nl & -> & X)|(-> & _)]]; [exfalso| |contradiction].
  - unfold feed_predict in Hm'. cbn in Hm'. destruct R as [(M & _)|[(M & _)|[(M & (q & Z) & _)|(M & (q & w & Z) & _)]]]; rewrite M in Hm'; try discriminate; rewrite Z in Hm'; discriminate.
  - assert (R1 : m_reader m1 = None) by (apply I1; auto). apply feed_tidy in F; auto. destruct F as (_ & _ & C0 & _). specialize (C0 (or_intror M)).
    set (m' := set_mode (set_head (took m1 [LF]) h') Body) in *. assert (Cs : m_chunks m' = []) by exact C0. assert (Rs : m_reader m' = None) by exact R1. assert (Ms : m_mode m' = Body) by reflexivity. clearbody m'.
    split; [unfold get_body; rewrite Cs; reflexivity|]. split.
    + induction calls as [|t calls IH]; [reflexivity|]. cbn [x_run map]. destruct t as [|c t].
      * rewrite (x_feed_base m' [] (Ret []) m'); [rewrite IH; reflexivity|exact I'|apply XB_nil|rewrite Ms; discriminate].
      * rewrite (x_feed_base m' (c :: t) (Raise EValueError) m'); [rewrite IH; reflexivity|exact I'| |rewrite Ms; discriminate].
        rewrite XB_body by (auto; discriminate). unfold x_body. rewrite Rs. unfold x_raw. rewrite Cs. reflexivity.
    + unfold close. rewrite Rs, Ms. split; [reflexivity|]. split; [unfold get_body; cbn; rewrite Cs; reflexivity|reflexivity].
Qed.

(** ** A Content-Length that is no number *)
(** the field at which the blank line fails *)
Definition neutral (ign : list bytes) (nv : bytes * bytes) : Prop :=
  in_list (lower (fst nv)) ign = true \/
  (lower (fst nv) <> B "content-length" /\ (lower (fst nv) = B "transfer-encoding" -> contains (B "chunked") (lower (snd nv)) = false)).
Definition unreadable (ign : list bytes) (nv : bytes * bytes) : Prop :=
  in_list (lower (fst nv)) ign = false /\ lower (fst nv) = B "content-length" /\ py_int 10 (lower (snd nv)) = None.
Definition blocked (h : hdr) : Prop :=
  h_mode h = MClose /\ exists l nv l', h_headers h = l ++ nv :: l' /\ Forall (neutral (h_ignore h)) l /\ unreadable (h_ignore h) nv.
Lemma note_mode h nv h' : note_header h nv = Ret h' -> h_mode h' = MClose -> h_mode h = MClose /\ neutral (h_ignore h) nv /\ h_ignore h' = h_ignore h.
Proof.
  unfold note_header, neutral. destruct (in_list (lower (fst nv)) (h_ignore h)) eqn:Ei; [intros X M; injection X as <-; auto|].
  destruct (bytes_eqb (lower (fst nv)) (B "expect")) eqn:E1.
  { apply bytes_eqb_eq in E1. rewrite E1. intros X M. destruct (contains _ _); injection X as <-; (split; [exact M|]; split; [right; split; discriminate|reflexivity]). }
  destruct (bytes_eqb (lower (fst nv)) (B "content-length")) eqn:E2.
  { destruct (h_mode h) eqn:Hm; [|intros X M; injection X as <-; congruence..]. destruct (py_int 10 _); [|discriminate]. intros X M. injection X as <-. discriminate. }
  destruct (bytes_eqb (lower (fst nv)) (B "transfer-encoding")) eqn:E3.
  { apply bytes_eqb_eq in E3. rewrite E3. destruct (contains (B "chunked") _) eqn:Ec; intros X M; injection X as <-; [discriminate|]. split; [exact M|]. split; [right; split; [discriminate|reflexivity]|reflexivity]. }
  assert (Nn : lower (fst nv) <> B "content-length" /\ (lower (fst nv) = B "transfer-encoding" -> contains (B "chunked") (lower (snd nv)) = false)).
  { split; intro X; rewrite X in *; discriminate. }
  destruct (bytes_eqb (lower (fst nv)) (B "content-encoding")); [intros X M; injection X as <-; auto|].
  destruct (bytes_eqb (lower (fst nv)) (B "connection")); [|intros X M; injection X as <-; auto].
  intros X M. apply (f_equal (fun r => match r with Ret a => a | _ => h end)) in X. cbv beta iota in X. subst h'. revert M.
  destruct (contains (B "keep-alive") _); [intro M; auto|]. destruct (contains (B "close") _); intro M; auto.
Qed.
Lemma note_neutral h nv : h_mode h = MClose -> neutral (h_ignore h) nv -> exists h', note_header h nv = Ret h' /\ h_mode h' = MClose /\ h_ignore h' = h_ignore h.
Proof.
  unfold note_header, neutral. intros M [E|[N1 N2]]; [rewrite E; eauto|]. destruct (in_list (lower (fst nv)) (h_ignore h)); [eauto|].
  destruct (bytes_eqb (lower (fst nv)) (B "expect")); [destruct (contains (B "100-continue") _); eauto|].
  destruct (bytes_eqb (lower (fst nv)) (B "content-length")) eqn:E2; [exfalso; apply N1, bytes_eqb_eq, E2|].
  destruct (bytes_eqb (lower (fst nv)) (B "transfer-encoding")) eqn:E3; [apply bytes_eqb_eq in E3; rewrite N2 by exact E3; eauto|].
  destruct (bytes_eqb (lower (fst nv)) (B "content-encoding")); [eauto|]. destruct (bytes_eqb (lower (fst nv)) (B "connection")); [|eauto].
  eexists. split; [reflexivity|]. destruct (contains (B "keep-alive") _); [auto|]. destruct (contains (B "close") _); auto.
Qed.
Lemma note_raises h nv e : note_header h nv = Raise e -> e = EValueError /\ h_mode h = MClose /\ unreadable (h_ignore h) nv.
Proof.
  unfold note_header, unreadable. destruct (in_list (lower (fst nv)) (h_ignore h)) eqn:Ei; [discriminate|].
  destruct (bytes_eqb (lower (fst nv)) (B "expect")); [discriminate|].
  destruct (bytes_eqb (lower (fst nv)) (B "content-length")) eqn:E2.
  { destruct (h_mode h) eqn:Hm; try discriminate. destruct (py_int 10 _) eqn:Ep; [discriminate|]. intro X. injection X as <-. apply bytes_eqb_eq in E2. auto. }
  destruct (bytes_eqb (lower (fst nv)) (B "transfer-encoding")); [discriminate|]. destruct (bytes_eqb (lower (fst nv)) (B "content-encoding")); [discriminate|].
  destruct (bytes_eqb (lower (fst nv)) (B "connection")); discriminate.
Qed.
Lemma note_blocked l : forall h e, note_headers h l = Raise e -> e = EValueError /\ h_mode h = MClose /\ h_mode (note_until h l) = MClose /\ h_ignore (note_until h l) = h_ignore h /\
  exists l1 nv l2, l = l1 ++ nv :: l2 /\ Forall (neutral (h_ignore h)) l1 /\ unreadable (h_ignore h) nv.
Proof.
  induction l as [|nv l IH]; intros h e H; [discriminate|]. cbn [note_headers note_until] in *. destruct (note_header h nv) as [h1|e1|] eqn:E; try discriminate.
  - cbn [bind] in H. apply IH in H as (X & M1 & M2 & I2 & l1 & q & l2 & L & N & U). apply note_mode in E as (M & Nn & Ie); [|exact M1]. rewrite Ie in *.
    split; [exact X|]. split; [exact M|]. split; [exact M2|]. split; [exact I2|]. exists (nv :: l1), q, l2. split; [rewrite L; reflexivity|]. split; [constructor; assumption|exact U].
  - cbn [bind] in H. injection H as <-. apply note_raises in E as (X & M & U). split; [exact X|]. split; [exact M|]. split; [exact M|]. split; [reflexivity|]. exists [], nv, l. auto.
Qed.
Lemma blocked_raises l : forall h nv l', h_mode h = MClose -> Forall (neutral (h_ignore h)) l -> unreadable (h_ignore h) nv -> note_headers h (l ++ nv :: l') = Raise EValueError.
Proof.
  induction l as [|x l IH]; intros h nv l' M N U; cbn [app note_headers].
  - destruct U as (U1 & U2 & U3). unfold note_header. rewrite U1, U2, M, U3. reflexivity.
  - inversion N as [|? ? N1 N2]; subst. destruct (note_neutral h x M N1) as (h1 & -> & M1 & I1). cbn [bind]. apply IH; [exact M1| |]; rewrite I1; assumption.
Qed.
Lemma is_blank_not_folded line : in_list line NEWLINES = true -> is_folded line = false.
Proof. intro Nl. unfold NEWLINES, in_list, existsb in Nl. apply Bool.orb_prop in Nl as [Nl|Nl]; [|rewrite Bool.orb_false_r in Nl]; apply bytes_eqb_eq in Nl; rewrite Nl; reflexivity. Qed.
Lemma blocked_blank h line : blocked h -> in_list line NEWLINES = true -> exists h', x_header_line h line = (Raise EValueError, h') /\ blocked h'.
Proof.
  intros (M & l & nv & l' & L & N & U) Hb. unfold x_header_line, add_header_line. rewrite (is_blank_not_folded _ Hb), Hb.
  pose proof (blocked_raises l h nv l' M N U) as R. rewrite <- L in R. rewrite R. eexists. split; [reflexivity|].
  destruct (note_blocked _ _ _ R) as (_ & _ & M2 & I2 & _). destruct (note_until_same (h_headers h) h) as (_ & Hh & _). split; [exact M2|]. exists l, nv, l'. rewrite Hh, I2. auto.
Qed.
Lemma blocked_field h line : blocked h -> in_list line NEWLINES = false -> is_folded line = false ->
  exists o h', x_header_line h line = (o, h') /\ o <> Diverge /\ blocked h'.
Proof.
  intros Hb N F. unfold x_header_line, add_header_line. rewrite F, N. destruct (split_field line) as [nv|e|] eqn:E; cbn [bind].
  - eexists _, _. split; [reflexivity|]. split; [discriminate|]. destruct Hb as (M & l & q & l' & L & Nn & U). split; [exact M|]. exists l, q, (l' ++ [nv]). cbn [h_headers set_headers h_ignore].
    split; [rewrite L, <- app_assoc; reflexivity|auto].
  - eexists _, _. split; [reflexivity|]. split; [discriminate|exact Hb].
  - exfalso. unfold split_field in E. destruct (split_once COLON line) as [[? ?]|]; discriminate.
Qed.
(** one line of text that is no continuation *)
Definition plain_line (line : bytes) : Prop := exists l, line = l ++ [LF] /\ no_lf l /\ is_folded line = false.
(** When the blank line after the fields raises, further fields do not help: no later
    plain line completes the head, and every blank line raises ValueError again. *)
Theorem C85_bad_length_is_final m l e m' : x_reached m -> at_line_start m -> blank_line l -> headers_complete m = false ->
  x_feed gz m (l ++ [LF]) = (Raise e, m') -> headers_complete m' = false ->
  e = EValueError /\ (exists nv, In nv (h_headers (m_head m')) /\ lower (fst nv) = B "content-length" /\ py_int 10 (lower (snd nv)) = None) /\
  forall lines, Forall plain_line lines -> exists outs n, x_run m' lines = (outs, n) /\ headers_complete n = false /\ get_message n = get_message m' ++ concat lines /\
    Forall2 (fun line o => o <> Diverge /\ (in_list line NEWLINES = true -> o = Raise EValueError)) lines outs.
Proof.
  intros Hr Ha Hb Hc H Hc'. destruct (x_reached_good m Hr) as [Hi Hy]. pose proof (line_start_pending m Ha) as Hp. pose proof Hi as [[Hw [Hrd _]] _].
  assert (Nl : no_lf l) by (destruct Hb as [-> | ->]; intro X; [destruct X|destruct X as [X|[]]; discriminate]).
  assert (Bl : in_list (l ++ [LF]) NEWLINES = true) by (destruct Hb as [-> | ->]; reflexivity).
  assert (Hs : split_once LF (l ++ [LF]) = Some (l, [])) by (apply (split_once_hit LF l []); exact Nl). assert (Hne : l ++ [LF] <> []) by apply mid_nonempty.
  assert (Hline : pending m ++ l ++ [LF] = l ++ [LF]) by (rewrite Hp; reflexivity).
  assert (Q : m_mode m' = Headers /\ m_off m' = List.length (m_buf m') /\ blocked (m_head m') /\ e = EValueError).
  { rewrite x_feed_resp in H by exact Hi. unfold headers_complete in Hc. destruct (m_mode m) eqn:M; try discriminate.
    - pose proof (XB_start gz m _ M Hw Hne) as E. rewrite Hs in E. cbv zeta in E. rewrite Hline, Bl in E. rewrite E in H. unfold x_resp in H. cbn [fst snd] in H.
      match type of H with context [continue_dec ?q] => destruct (continue_dec q) as [C|C] end; [|discriminate]. exfalso. revert C. apply not_end. cbn. rewrite M. discriminate.
    - pose proof (XB_headers gz m _ M Hw Hne) as E. rewrite Hs in E. cbv zeta in E. rewrite Hline, Bl in E.
      unfold x_header_line, add_header_line in E. rewrite (is_blank_not_folded _ Bl), Bl in E. destruct (note_headers (m_head m) (h_headers (m_head m))) as [h|e0|] eqn:En.
      + exfalso. unfold x_begin in E. set (m2 := set_mode (set_head (took m (l ++ [LF])) h) Body) in *. assert (R2 : m_reader m2 = None) by (apply Hrd; auto).
        destruct (begin_body gz m2 []) as [m3|e3|] eqn:E3; cbn [x_on] in E.
        * rewrite XB_nil in E. rewrite E in H. unfold x_resp in H. cbn [fst snd] in H. destruct (continue_dec m3) as [C|C]; [|discriminate]. rewrite XB_nil in H. discriminate.
        * rewrite E in H. injection H as <- <-. discriminate.
        * rewrite E in H. discriminate.
      + rewrite E in H. injection H as <- <-. destruct (note_blocked _ _ _ En) as (-> & M1 & M2 & I2 & l1 & nv & l2 & L & N & U). split; [exact M|]. split; [reflexivity|]. split; [|reflexivity].
        cbn [m_head set_head]. split; [exact M2|]. exists l1, nv, l2. destruct (note_until_same (h_headers (m_head m)) (m_head m)) as (_ & Hh & _). rewrite Hh, I2. auto.
      + rewrite E in H. discriminate.
    - destruct Ha as [_ Ha]. unfold feed_predict in Ha. rewrite M in Ha. discriminate. }
  assert (I' : inv m') by (eapply x_feed_inv; [exact Hi|exact H|discriminate]). destruct Q as (M' & O' & B' & ->). split; [reflexivity|]. split.
  { destruct B' as (_ & l1 & nv & l2 & L & _ & _ & U2 & U3). exists nv. split; [rewrite L; apply in_or_app; right; left; reflexivity|auto]. }
  clear - M' O' B' I'. intro lines. revert m' M' O' B' I'. induction lines as [|line lines IH]; intros m M O Hb Hi Hl.
  - exists [], m. split; [reflexivity|]. split; [unfold headers_complete; rewrite M; reflexivity|]. split; [symmetry; apply app_nil_r|constructor].
  - inversion Hl as [|? ? (l & -> & Nl & Fl) Hl']; subst. pose proof Hi as [[Hw _] _].
    assert (Hs : split_once LF (l ++ [LF]) = Some (l, [])) by (apply (split_once_hit LF l []); exact Nl). assert (Hne : l ++ [LF] <> []) by apply mid_nonempty.
    assert (Hline : pending m ++ l ++ [LF] = l ++ [LF]) by (unfold pending; rewrite O, skipn_all; reflexivity).
    assert (S : exists o m1, x_base gz m (l ++ [LF]) = (o, m1) /\ o <> Diverge /\ (in_list (l ++ [LF]) NEWLINES = true -> o = Raise EValueError) /\ m_mode m1 = Headers /\ m_off m1 = List.length (m_buf m1) /\ blocked (m_head m1) /\ m_buf m1 = m_buf m ++ l ++ [LF]).
    { pose proof (XB_headers gz m _ M Hw Hne) as E. rewrite Hs in E. cbv zeta in E. rewrite Hline in E. destruct (in_list (l ++ [LF]) NEWLINES) eqn:Bl.
      - destruct (blocked_blank _ _ Hb Bl) as (h' & X & Y). rewrite X in E. eexists _, _. split; [exact E|]. split; [discriminate|]. auto.
      - destruct (blocked_field _ _ Hb Bl Fl) as (o & h' & X & Y & Z). rewrite X in E. destruct o as [u|e|]; [|eexists _, _; split; [exact E|]; split; [discriminate|]; split; [discriminate|]; auto|contradiction].
        rewrite XB_nil in E. eexists _, _. split; [exact E|]. split; [discriminate|]. split; [discriminate|]. auto. }
    destruct S as (o & m1 & E & Hd & Ho & M1 & O1 & B1 & Bf1).
    assert (F : x_feed gz m (l ++ [LF]) = (o, m1)) by (apply x_feed_base; [exact Hi|exact E|rewrite M1; discriminate]).
    assert (I1 : inv m1) by (eapply x_feed_inv; [exact Hi|exact F|exact Hd]).
    destruct (IH m1 M1 O1 B1 I1 Hl') as (outs & n & R & Hn & Gm & Hf). exists (o :: outs), n. cbn [x_run]. rewrite F, R. split; [destruct o; try reflexivity; contradiction|]. split; [exact Hn|].
    split; [|constructor; auto]. rewrite Gm. unfold get_message. rewrite Bf1. cbn [concat]. rewrite <- !app_assoc. reflexivity.
Qed.
End G.

(** ** Concrete cases *)
Definition bad_gzip (b : bytes) : outcome bytes := Raise EZlibError.
Definition c85_start : bytes := B "HTTP/1.1 200 OK" ++ CRLF ++ B "Content-Length: 2" ++ CRLF.
Definition c85_new : msg := parser_for (Some (B "GET")) [].
Definition c85_head : msg := snd (x_run bad_gzip c85_new [c85_start]).
(** the state reached by a list of calls *)
Lemma c85_reached kind ign calls : existsb (fun o => match o with Diverge => true | _ => false end) (fst (x_run bad_gzip (parser_for kind ign) calls)) = false ->
  x_reached bad_gzip (snd (x_run bad_gzip (parser_for kind ign) calls)).
Proof.
  intro H. destruct (x_run bad_gzip (parser_for kind ign) calls) as [outs m] eqn:E. exists kind, ign, calls, outs. split; [exact E|]. cbn [fst] in H. intro X.
  assert (true = false); [|discriminate]. rewrite <- H. symmetry. apply existsb_exists. exists Diverge. split; [exact X|reflexivity].
Qed.
(** a field line without a colon is refused, the rest of the piece is lost, and the parser
    goes on as though neither had been there, the line being in the message text only *)
Example C85_refused_field : x_reached bad_gzip c85_head /\ at_line_start c85_head /\
  (let '(outs, m) := x_run bad_gzip c85_head [B "no colon here" ++ CRLF ++ B "Lost: 1" ++ CRLF; B "Kept: 2" ++ CRLF ++ CRLF ++ B "ab"] in
   outs = [Raise EValueError; Ret []] /\ complete m = true /\ get_body m = B "ab" /\ h_headers (m_head m) = [(B "Content-Length", B "2"); (B "Kept", B "2")] /\
   get_message m = c85_start ++ B "no colon here" ++ CRLF ++ B "Kept: 2" ++ CRLF ++ CRLF ++ B "ab").
Proof. split; [apply (c85_reached (Some (B "GET")) [] [c85_start]); vm_compute; reflexivity|]. split; [vm_compute; auto|]. vm_compute. repeat split. Qed.
Example C85_refused_field_exists : exists m', x_feed bad_gzip c85_head (B "no colon here" ++ [13%N] ++ [LF]) = (Raise EValueError, m') /\ no_lf (B "no colon here" ++ [13%N]) /\ ~ blank_line (B "no colon here" ++ [13%N]).
Proof. eexists. split; [vm_compute; reflexivity|]. split; [intro X; vm_compute in X; intuition discriminate|]. intros [X|X]; discriminate. Qed.
(** a chunk size in the middle of a body that is no number *)
Example C85_refused_size :
  (let '(outs, m) := x_run bad_gzip c85_new [B "HTTP/1.1 200 OK" ++ CRLF ++ B "Transfer-Encoding: chunked" ++ CRLF ++ CRLF ++ B "2" ++ CRLF ++ B "ab" ++ CRLF ++ B "wrong" ++ CRLF ++ B "lost"; B "1" ++ CRLF ++ B "c"; CRLF ++ B "0" ++ CRLF ++ CRLF ++ B "next"] in
   outs = [Raise EValueError; Ret []; Ret (B "next")] /\ complete m = true /\ get_body m = B "abc").
Proof. vm_compute. repeat split. Qed.
(** an announced length that is no number *)
Example C85_bad_length_case : let m := snd (x_run bad_gzip c85_new [B "HTTP/1.1 200 OK" ++ CRLF ++ B "Content-Length: two" ++ CRLF]) in
  x_reached bad_gzip m /\ at_line_start m /\ headers_complete m = false /\
  (let '(o, m') := x_feed bad_gzip m ([13%N] ++ [LF]) in o = Raise EValueError /\ headers_complete m' = false /\
   fst (x_run bad_gzip m' [B "Content-Length: 2" ++ CRLF; CRLF; B "ab"]) = [Ret []; Raise EValueError; Ret []]).
Proof. cbv zeta. split; [apply c85_reached; vm_compute; reflexivity|]. split; [vm_compute; auto|]. split; [reflexivity|]. vm_compute. repeat split. Qed.
(** ... which a later continuation line can still repair *)
Example C85_bad_length_folded :
  (let '(outs, m) := x_run bad_gzip c85_new [B "HTTP/1.1 200 OK" ++ CRLF ++ B "Content-Length:" ++ CRLF ++ CRLF; B " 2" ++ CRLF ++ CRLF ++ B "ab"] in
   outs = [Raise EValueError; Ret []] /\ complete m = true /\ get_body m = B "ab").
Proof. vm_compute. repeat split. Qed.
(** a gzip body that cannot be unpacked *)
Example C85_bad_gzip_case : let m := snd (x_run bad_gzip c85_new [c85_start]) in
  (let '(o, m') := x_feed bad_gzip m (B "Content-Encoding: gzip" ++ CRLF ++ CRLF ++ B "ab") in o = Raise EZlibError /\ feed_predict m' = WantAll /\ complete (close m') = true /\
   get_message m' = c85_start ++ B "Content-Encoding: gzip" ++ CRLF ++ CRLF /\ fst (x_run bad_gzip m' [B "ab"; []]) = [Raise EValueError; Ret []]).
Proof. vm_compute. repeat split. Qed.
