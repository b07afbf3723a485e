(** C68: feed_fd *)
From Verif Require Export FeedFd PropsHttpMsg.
From Coq Require Import String List Lia ZArith.
Open Scope list_scope.

(** wherever a line is expected - a new message, unfinished headers, chunk sizes, trailers -
    AttributeError, and nothing is read from the file *)
Theorem C68_lines_cannot_be_read : forall gz fuel m f, feed_predict m = WantLine ->
  feed_fd gz (S fuel) m f = (Raise EAttributeError, f).
Proof. intros gz fuel m f H. cbn [feed_fd]. rewrite H. reflexivity. Qed.
Theorem C68_new_messages_cannot_be_read : forall gz fuel kind ign f,
  feed_fd gz (S fuel) (parser_for kind ign) f = (Raise EAttributeError, f).
Proof. intros. apply C68_lines_cannot_be_read. destruct kind; reflexivity. Qed.
(** a complete message reads nothing *)
Theorem C68_complete_message_reads_nothing : forall gz fuel m f, complete m = true -> feed_fd gz (S fuel) m f = (Ret (m, []), f).
Proof. intros gz fuel m f H. cbn [feed_fd]. unfold complete in H. unfold feed_predict. destruct (m_mode m); try discriminate. reflexivity. Qed.

Lemma base_feed_nothing gz m : base_feed gz m [] = Ret (m, []).
Proof. unfold base_feed. destruct (m_mode m) eqn:E; cbn [empty_text bind]; rewrite E; cbn [bind]; rewrite E; reflexivity. Qed.
Lemma feed_nothing gz m : complete m = false -> feed gz m [] = Ret (m, []).
Proof. intro H. unfold feed. rewrite base_feed_nothing. cbn [bind]. rewrite H. destruct (h_kind (m_head m)); reflexivity. Qed.
Lemma feed_all_last gz m pieces p m1 : feed_all gz m pieces = Ret (m1, []) -> feed_all gz m (pieces ++ [p]) = feed gz m1 p.
Proof.
  revert m. induction pieces as [|q ps IH]; intros m H; cbn [app feed_all] in *.
  - injection H as ->. destruct (feed gz m1 p) as [[m2 [|x t]]|e|]; cbn [bind fst snd]; try reflexivity. cbn [concat]. rewrite app_nil_r. reflexivity.
  - destruct (feed gz m q) as [[m2 [|x t]]|e|]; cbn [bind fst snd] in *; try discriminate. apply IH, H.
Qed.
Lemma f_rest_advance f n : f_rest (f_advance f n) = skipn n (f_rest f).
Proof.
  unfold f_rest, f_advance. cbn. generalize (f_data f). induction (f_pos f) as [|p IH]; intro l; [reflexivity|].
  destruct l as [|x l]; [rewrite !skipn_nil; reflexivity|]. cbn [Nat.add skipn]. apply IH.
Qed.
(** stuck: nothing left to read, the message still wants something *)
Lemma stuck_fd gz m : complete m = false -> (feed_predict m = WantAll \/ exists n, feed_predict m = WantAtMost n /\ n <> 0%Z) ->
  forall fuel f, f_rest f = [] -> fst (feed_fd gz fuel m f) = Diverge.
Proof.
  intros Hc Hp. induction fuel as [|fuel IH]; intros f Hf; [reflexivity|]. cbn [feed_fd].
  assert (Hgo : forall f', f_rest f' = [] -> fst (match feed gz m [] with
     | Ret (m', []) => feed_fd gz fuel m' f' | Ret (m', unread) => (Ret (m', unread), f') | Raise e => (Raise e, f') | Diverge => (Diverge, f') end) = Diverge).
  { intros f' H'. rewrite feed_nothing by exact Hc. apply IH, H'. }
  destruct Hp as [-> |(n & -> & Hn)].
  - unfold f_read_all. rewrite Hf. apply Hgo. rewrite f_rest_advance, Hf. reflexivity.
  - replace (Z.eqb n 0) with false by lia. destruct (Z.ltb_spec n 0).
    + unfold f_read_all. rewrite Hf. apply Hgo. rewrite f_rest_advance, Hf. reflexivity.
    + unfold f_read. replace (Z.ltb n 0) with false by lia. rewrite Hf, firstn_nil. apply Hgo. rewrite f_rest_advance, Hf. reflexivity.
Qed.

Section M.
Variable gz : bytes -> outcome bytes.
Hypothesis Hgz : gz_ok gz.
Variables (kind : option bytes) (ign : list bytes) (h : msg_head) (k : hkind).
Hypothesis Hok : head_ok h.
Hypothesis Hsays : start_says kind (hd_start h) k.
Notation pairs := (head_pairs h).
Notation parser := (parser_for kind ign).

(** A body of known length whose headers and first part were fed in any pieces: feed_fd reads
    the missing bytes, those and no more, and the message is complete. *)
Theorem C68_length_body_from_file v part missing after pieces f : may_have_body k ->
  says_chunked (ignored ign) pairs = false -> length_value (ignored ign) pairs = Some v -> v <> [] -> forallb is_digit v = true ->
  gzip_coded ign pairs = false -> missing <> [] ->
  dec_value v = Z.of_nat (List.length (part ++ missing)) -> concat pieces = head_text h ++ part -> f_rest f = missing ++ after ->
  exists m m', feed_all gz parser pieces = Ret (m, []) /\
    forall fuel, 2 <= fuel -> feed_fd gz fuel m f = (Ret (m', []), f_advance f (List.length missing)) /\
    f_rest (f_advance f (List.length missing)) = after /\ complete m' = true /\ get_body m' = part ++ missing.
Proof.
  intros Hb Hc Hv Hn Hd Hg Hm He Hp Hf. assert (Hpos : 0 < List.length missing) by (destruct missing; [congruence|cbn; lia]). rewrite app_length in He.
  destruct (C33_short_body_is_incomplete gz Hgz kind ign h k Hok Hsays v part pieces Hb Hc Hv Hn Hd Hg ltac:(lia) Hp) as (m & E & Ec & _ & _ & _ & Ep).
  destruct (C33_length_body_is_exact gz Hgz kind ign h k Hok Hsays v (part ++ missing) [] (pieces ++ [missing]) Hb Hc Hv Hn Hd Hg ltac:(rewrite app_length; lia))
    as (m' & E' & Ec' & Eb' & _).
  { rewrite concat_app, Hp. cbn [concat]. rewrite !app_nil_r, <- app_assoc. reflexivity. }
  rewrite (feed_all_last _ _ _ _ _ E) in E'. exists m, m'. split; [exact E|]. intros fuel Hfu.
  assert (Hr : f_rest (f_advance f (List.length missing)) = after) by (rewrite f_rest_advance, Hf, skipn_app, skipn_all, Nat.sub_diag; reflexivity).
  split; [|auto]. destruct fuel as [|[|fuel]]; try lia. cbn [feed_fd]. rewrite Ep.
  replace (dec_value v - Z.of_nat (List.length part))%Z with (Z.of_nat (List.length missing)) by lia.
  replace (Z.eqb (Z.of_nat (List.length missing)) 0) with false by lia. replace (Z.ltb (Z.of_nat (List.length missing)) 0) with false by lia.
  unfold f_read. replace (Z.ltb (Z.of_nat (List.length missing)) 0) with false by lia. rewrite Nat2Z.id, Hf.
  rewrite firstn_app, firstn_all, Nat.sub_diag. cbn [firstn]. rewrite app_nil_r, E'.
  unfold complete in Ec'. unfold feed_predict. destruct (m_mode m'); try discriminate. reflexivity.
Qed.
(** If the file ends before, feed_fd never returns. *)
Theorem C68_short_file_hangs v part pieces f : may_have_body k ->
  says_chunked (ignored ign) pairs = false -> length_value (ignored ign) pairs = Some v -> v <> [] -> forallb is_digit v = true ->
  gzip_coded ign pairs = false ->
  (Z.of_nat (List.length (part ++ f_rest f)) < dec_value v)%Z -> concat pieces = head_text h ++ part ->
  exists m, feed_all gz parser pieces = Ret (m, []) /\ forall fuel, fst (feed_fd gz fuel m f) = Diverge.
Proof.
  intros Hb Hc Hv Hn Hd Hg He Hp. rewrite app_length in He.
  destruct (C33_short_body_is_incomplete gz Hgz kind ign h k Hok Hsays v part pieces Hb Hc Hv Hn Hd Hg ltac:(lia) Hp) as (m & E & Ec & _ & _ & _ & Ep).
  destruct (C33_short_body_is_incomplete gz Hgz kind ign h k Hok Hsays v (part ++ f_rest f) (pieces ++ [f_rest f]) Hb Hc Hv Hn Hd Hg ltac:(rewrite app_length; lia))
    as (m' & E' & Ec' & _ & _ & _ & Ep').
  { rewrite concat_app, Hp. cbn [concat]. rewrite !app_nil_r, <- app_assoc. reflexivity. }
  rewrite (feed_all_last _ _ _ _ _ E) in E'. exists m. split; [exact E|]. intros [|fuel]; [reflexivity|]. cbn [feed_fd]. rewrite Ep.
  set (n := (dec_value v - Z.of_nat (List.length part))%Z). replace (Z.eqb n 0) with false by lia. replace (Z.ltb n 0) with false by lia.
  unfold f_read. replace (Z.ltb n 0) with false by lia. rewrite firstn_all2 by lia. rewrite E'.
  apply stuck_fd; [exact Ec'| |rewrite f_rest_advance; apply skipn_all].
  right. eexists. split; [exact Ep'|]. rewrite app_length. lia.
Qed.
(** A body that ends with the connection: feed_fd never returns, whatever the file holds. *)
Theorem C68_close_delimited_hangs part pieces f : may_have_body k -> (exists rm, kind = Some rm) ->
  says_chunked (ignored ign) pairs = false -> length_value (ignored ign) pairs = None -> concat pieces = head_text h ++ part ->
  exists m, feed_all gz parser pieces = Ret (m, []) /\ forall fuel, fst (feed_fd gz fuel m f) = Diverge.
Proof.
  intros Hb Hk Hc Hv Hp.
  destruct (C36_close_delimited_body gz Hgz kind ign h k Hok Hsays part pieces Hb Hk Hc Hv Hp) as (m & E & Ec & Ep & _).
  destruct (C36_close_delimited_body gz Hgz kind ign h k Hok Hsays (part ++ f_rest f) (pieces ++ [f_rest f]) Hb Hk Hc Hv) as (m' & E' & Ec' & Ep' & _).
  { rewrite concat_app, Hp. cbn [concat]. rewrite !app_nil_r, <- app_assoc. reflexivity. }
  rewrite (feed_all_last _ _ _ _ _ E) in E'. exists m. split; [exact E|]. intros [|fuel]; [reflexivity|]. cbn [feed_fd]. rewrite Ep.
  unfold f_read_all. rewrite E'. apply stuck_fd; [exact Ec'|left; exact Ep'|rewrite f_rest_advance; apply skipn_all].
Qed.
End M.

Example C68_case : let text := B "HTTP/1.1 200 OK" ++ CRLF ++ B "Content-Length: 6" ++ CRLF ++ CRLF ++ B "ab" in
  match feed_all (fun _ => Raise EOSError) (parser_for (Some (B "GET")) []) [text] with
  | Ret (m, []) => match feed_fd (fun _ => Raise EOSError) 2 m (mkfile (B "cdef rest") 0 true) with
                   | (Ret (m', []), f) => complete m' = true /\ get_body m' = B "abcdef" /\ f_rest f = B " rest"
                   | _ => False end
  | _ => False end.
Proof. vm_compute. repeat split. Qed.
