(** C54, C55: S3. *)
From Verif Require Export S3 ToolFacts.
From Coq Require Import String List Lia Sorted.
Open Scope list_scope.

(** ** Specification *)
(** the order of keys: byte by byte *)
Inductive key_lt : bytes -> bytes -> Prop :=
| LtNil y b : key_lt [] (y :: b)
| LtHead x y a b : (x < y)%N -> key_lt (x :: a) (y :: b)
| LtTail x a b : key_lt a b -> key_lt (x :: a) (x :: b).
Definition in_order (keys : list bytes) : Prop := StronglySorted key_lt keys.
Definition under (pfx key : bytes) : Prop := exists t, key = pfx ++ t.
(** a bucket name and a prefix that survive in an URL *)
Definition bucket_ok (b : bytes) : Prop := forall c, In c b -> c <> 47%N /\ c <> 63%N /\ c <> 35%N.
Definition key_ok (k : bytes) : Prop := forall c, In c k -> c <> 63%N /\ c <> 35%N.
(** what the service returns for a Range header (RFC 7233): both ends are included *)
Inductive served : option bytes -> bytes -> bytes -> Prop :=
| ServedAll obj : served None obj obj
| ServedFrom first obj : first < List.length obj -> served (Some (B "bytes=" ++ dec_nat first ++ B "-")) obj (skipn first obj)
| ServedRange first last obj : first <= last -> first < List.length obj ->
    served (Some (B "bytes=" ++ dec_nat first ++ B "-" ++ dec_nat last)) obj (firstn (last - first + 1) (skipn first obj)).

(** ** Order *)
Lemma key_ltb_iff a : forall b, key_ltb a b = true <-> key_lt a b.
Proof.
  induction a as [|x a IH]; intros [|y b]; cbn [key_ltb].
  - split; [discriminate|intro H; inversion H].
  - split; [constructor|reflexivity].
  - split; [discriminate|intro H; inversion H].
  - rewrite orb_true_iff, andb_true_iff, N.ltb_lt, N.eqb_eq, IH. split.
    + intros [H|[ -> H]]; [apply LtHead|apply LtTail]; exact H.
    + intro H. inversion H; subst; auto.
Qed.
Lemma key_lt_trans a : forall b c, key_lt a b -> key_lt b c -> key_lt a c.
Proof.
  induction a as [|x a IH]; intros b c H1 H2; inversion H1; subst; inversion H2; subst; try (apply LtNil); try (apply LtHead; lia).
  apply LtTail. eapply IH; eassumption.
Qed.
Lemma key_lt_irrefl a : ~ key_lt a a.
Proof. induction a as [|x a IH]; intro H; inversion H; subst; [lia|auto]. Qed.
Lemma key_lt_total a : forall b, key_lt a b \/ a = b \/ key_lt b a.
Proof.
  induction a as [|x a IH]; intros [|y b]; [auto|left; constructor|right; right; constructor|].
  destruct (N.lt_total x y) as [H|[ -> |H]]; [left; constructor; exact H| |right; right; constructor; exact H].
  destruct (IH b) as [H|[ -> |H]]; [left; apply LtTail; exact H|auto|right; right; apply LtTail; exact H].
Qed.
Lemma sorted_filter (f : bytes -> bool) l : in_order l -> in_order (filter f l).
Proof.
  induction 1 as [|x l Hs IH Hx]; [constructor|]. cbn [filter]. destruct (f x); [|exact IH]. constructor; [exact IH|].
  rewrite Forall_forall in *. intros y Hy. apply filter_In in Hy as [Hy _]. auto.
Qed.
Lemma sorted_app (a b : list bytes) : in_order (a ++ b) <-> in_order a /\ in_order b /\ (forall x y, In x a -> In y b -> key_lt x y).
Proof.
  induction a as [|x a IH]; cbn [app].
  - split; [intro H; split; [constructor|]; split; [exact H|intros x y []]|intros (_ & H & _); exact H].
  - split.
    + intro H. apply StronglySorted_inv in H as [H Hf]. apply IH in H as (H1 & H2 & H3). rewrite Forall_app in Hf. destruct Hf as [F1 F2].
      split; [constructor; assumption|]. split; [exact H2|]. intros u v [ <- |Hu] Hv; [rewrite Forall_forall in F2; auto|auto].
    + intros (H1 & H2 & H3). apply StronglySorted_inv in H1 as [H1 Hf]. constructor.
      * apply IH. split; [exact H1|]. split; [exact H2|]. intros u v Hu Hv. apply H3; [right; exact Hu|exact Hv].
      * apply Forall_app. split; [exact Hf|]. apply Forall_forall. intros v Hv. apply H3; [left; reflexivity|exact Hv].
Qed.
Lemma last_in {A} (l : list A) d : l <> [] -> In (last l d) l.
Proof.
  induction l as [|x l IH]; [contradiction|]. intros _. destruct l as [|y l]; [left; reflexivity|]. right. change (last (x :: y :: l) d) with (last (y :: l) d). apply IH. discriminate.
Qed.
Lemma last_greatest l d x : in_order l -> In x l -> x = last l d \/ key_lt x (last l d).
Proof.
  induction 1 as [|y l Hs IH Hy]; [intros []|]. intros [ <- |Hi].
  - destruct l as [|z l]; [left; reflexivity|]. right. change (last (y :: z :: l) d) with (last (z :: l) d). rewrite Forall_forall in Hy. apply Hy, last_in. discriminate.
  - destruct l as [|z l]; [destruct Hi|]. change (last (y :: z :: l) d) with (last (z :: l) d). apply IH. exact Hi.
Qed.

(** ** The listing loop *)
Section Listing.
  Variables (s : service) (pfx : bytes).
  Hypothesis sorted : forall n, in_order (keys_at s n).
  Definition wanted (n : nat) (marker : bytes) : list bytes := filter (fun k => startswith pfx k && key_ltb marker k) (keys_at s n).
  Lemma wanted_in n marker k : In k (wanted n marker) <-> In k (keys_at s n) /\ under pfx k /\ key_lt marker k.
  Proof. unfold wanted. rewrite filter_In, andb_true_iff, key_ltb_iff, startswith_iff. reflexivity. Qed.
  Lemma page_facts n marker : in_order (firstn (page_at s n) (wanted n marker)) /\
    (forall k, In k (firstn (page_at s n) (wanted n marker)) -> In k (keys_at s n) /\ under pfx k /\ key_lt marker k) /\
    (forall k, In k (wanted n marker) -> In k (firstn (page_at s n) (wanted n marker)) \/
       (In k (skipn (page_at s n) (wanted n marker)) /\ forall x, In x (firstn (page_at s n) (wanted n marker)) -> key_lt x k)).
  Proof.
    set (w := wanted n marker). set (p := page_at s n).
    assert (Hs : in_order (firstn p w ++ skipn p w)) by (rewrite firstn_skipn; apply sorted_filter, sorted).
    apply sorted_app in Hs as (H1 & H2 & H3). split; [exact H1|]. split.
    - intros k Hk. apply wanted_in. fold w. rewrite <- (firstn_skipn p w). apply in_or_app. left. exact Hk.
    - intros k Hk. rewrite <- (firstn_skipn p w) in Hk. apply in_app_or in Hk as [Hk|Hk]; [left; exact Hk|right]. split; [exact Hk|]. intros x Hx. apply H3; assumption.
  Qed.
  (** what a finished listing consists of, whatever happened to the bucket in between *)
  Lemma list_loop_result : forall fuel n marker out, list_loop fuel s n pfx marker = Ret out ->
    in_order out /\
    (forall k, In k out -> under pfx k /\ key_lt marker k /\ exists m, n <= m /\ In k (keys_at s m)) /\
    (forall k, (forall m, n <= m -> In k (keys_at s m)) -> under pfx k -> key_lt marker k -> In k out).
  Proof.
    induction fuel as [|fuel IH]; intros n marker out H; [discriminate|]. cbn [list_loop] in H. unfold get_all_keys in H.
    fold (wanted n marker) in H. destruct (page_facts n marker) as (P1 & P2 & P3).
    destruct (Nat.ltb_spec (page_at s n) (List.length (wanted n marker))) as [Hl|Hl].
    - destruct (list_loop fuel s (S n) pfx (last (firstn (page_at s n) (wanted n marker)) marker)) as [more| |] eqn:E; try discriminate.
      cbn [bind] in H. injection H as <-. set (rs := firstn (page_at s n) (wanted n marker)) in *. destruct (IH _ _ _ E) as (I1 & I2 & I3).
      assert (Hm : forall k, key_lt (last rs marker) k -> key_lt marker k).
      { intros k Hk. destruct rs as [|x rs'] eqn:Er; [exact Hk|]. rewrite <- Er in *.
        assert (Hi : In (last rs marker) rs) by (apply last_in; rewrite Er; discriminate).
        destruct (P2 _ Hi) as (_ & _ & Hlt). exact (key_lt_trans _ _ _ Hlt Hk). }
      split.
      + apply sorted_app. split; [exact P1|]. split; [exact I1|]. intros x y Hx Hy. destruct (I2 y Hy) as (_ & Hlt & _).
        destruct (last_greatest rs marker x P1 Hx) as [ -> |Hg]; [exact Hlt|exact (key_lt_trans _ _ _ Hg Hlt)].
      + split.
        * intros k Hk. apply in_app_or in Hk as [Hk|Hk].
          -- destruct (P2 k Hk) as (A1 & A2 & A3). repeat split; try assumption. exists n. auto.
          -- destruct (I2 k Hk) as (A1 & A2 & m & A3 & A4). split; [exact A1|]. split; [apply Hm; exact A2|]. exists m. split; [lia|exact A4].
        * intros k Hall Hu Hlt. apply in_or_app.
          assert (Hw : In k (wanted n marker)) by (apply wanted_in; auto).
          destruct (P3 k Hw) as [Hk|[_ Hk]]; [left; exact Hk|]. right. apply I3; [intros m Hm'; apply Hall; lia|exact Hu|].
          destruct rs as [|x rs'] eqn:Er; [exact Hlt|]. rewrite <- Er in *. apply Hk, last_in. rewrite Er. discriminate.
    - injection H as <-. rewrite firstn_all2 in * by exact Hl. split; [exact P1|]. split.
      + intros k Hk. destruct (P2 k Hk) as (A1 & A2 & A3). repeat split; try assumption. exists n. auto.
      + intros k Hall Hu Hlt. apply wanted_in. auto.
  Qed.
  (** the listing of a bucket that does not change comes to an end *)
  Lemma list_loop_ends : (forall n, keys_at s n = keys_at s 0) -> (forall n, 0 < page_at s n) ->
    forall fuel n marker, List.length (wanted 0 marker) < fuel -> exists out, list_loop fuel s n pfx marker = Ret out.
  Proof.
    intros Hc Hp. assert (Hw : forall n marker, wanted n marker = wanted 0 marker) by (intros; unfold wanted; rewrite Hc; reflexivity).
    induction fuel as [|fuel IH]; intros n marker Hf; [lia|]. cbn [list_loop]. unfold get_all_keys. fold (wanted n marker).
    destruct (Nat.ltb_spec (page_at s n) (List.length (wanted n marker))) as [Hl|Hl]; [|eauto].
    set (rs := firstn (page_at s n) (wanted n marker)).
    assert (Hne : rs <> []).
    { unfold rs. pose proof (Hp n). destruct (page_at s n); [lia|]. destruct (wanted n marker); [cbn in Hl; lia|discriminate]. }
    destruct (page_facts n marker) as (P1 & P2 & P3). fold rs in P1, P2, P3.
    assert (Hlt : List.length (wanted 0 (last rs marker)) < List.length (wanted 0 marker)).
    { rewrite <- (Hw n marker). rewrite <- (firstn_skipn (page_at s n) (wanted n marker)), app_length. fold rs.
      assert (0 < List.length rs) by (destruct rs; [contradiction|cbn; lia]).
      assert (List.length (wanted 0 (last rs marker)) <= List.length (skipn (page_at s n) (wanted n marker))); [|lia].
      apply NoDup_incl_length.
      - assert (Hs : in_order (wanted 0 (last rs marker))) by apply sorted_filter, sorted. clear - Hs.
        induction Hs as [|x l Hl IH Hx]; constructor; [|exact IH]. intro Hi. rewrite Forall_forall in Hx. exact (key_lt_irrefl _ (Hx _ Hi)).
      - intros k Hk. apply wanted_in in Hk as (A1 & A2 & A3).
        assert (Hlast : In (last rs marker) rs) by (apply last_in; exact Hne).
        assert (Hk' : In k (wanted n marker)).
        { apply wanted_in. rewrite Hc. repeat split; try assumption. destruct (P2 _ Hlast) as (_ & _ & Q). exact (key_lt_trans _ _ _ Q A3). }
        destruct (P3 k Hk') as [Hk''|[Hk'' _]]; [|exact Hk'']. exfalso. destruct (last_greatest rs marker k P1 Hk'') as [E|Hg].
        + rewrite <- E in A3. exact (key_lt_irrefl _ A3).
        + exact (key_lt_irrefl _ (key_lt_trans _ _ _ A3 Hg)). }
    destruct (IH (S n) (last rs marker)) as [more E]; [lia|]. rewrite E. cbn [bind]. eauto.
  Qed.
End Listing.
(** sorted lists with the same members are equal *)
Lemma sorted_unique a : forall b, in_order a -> in_order b -> (forall k, In k a <-> In k b) -> a = b.
Proof.
  induction a as [|x a IH]; intros [|y b] Ha Hb H.
  - reflexivity.
  - exfalso. apply (H y). left. reflexivity.
  - exfalso. apply (H x). left. reflexivity.
  - apply StronglySorted_inv in Ha as [Ha Fa]. apply StronglySorted_inv in Hb as [Hb Fb]. rewrite Forall_forall in Fa, Fb.
    assert (E : x = y).
    { destruct (proj1 (H x) (or_introl eq_refl)) as [E|Hx]; [auto|]. destruct (proj2 (H y) (or_introl eq_refl)) as [E|Hy]; [auto|].
      destruct (key_lt_irrefl x). exact (key_lt_trans _ _ _ (Fa _ Hy) (Fb _ Hx)). }
    subst y. f_equal. apply IH; [exact Ha|exact Hb|]. intro k. split; intro Hk.
    + destruct (proj1 (H k) (or_intror Hk)) as [E|Hk']; [|exact Hk']. subst k. destruct (key_lt_irrefl x (Fa _ Hk)).
    + destruct (proj2 (H k) (or_intror Hk)) as [E|Hk']; [|exact Hk']. subst k. destruct (key_lt_irrefl x (Fb _ Hk)).
Qed.

(** ** URLs *)
Lemma up_to_app stop a b : (forall c, In c a -> ~ In c stop) -> (b = [] \/ exists c t, b = c :: t /\ In c stop) -> up_to stop (a ++ b) = (a, b).
Proof.
  intros Ha Hb. induction a as [|c a IH]; cbn [app up_to].
  - destruct Hb as [ -> |(c & t & -> & Hc)]; [reflexivity|]. cbn [up_to]. assert (E : existsb (N.eqb c) stop = true) by (apply existsb_exists; exists c; split; [exact Hc|apply N.eqb_refl]). rewrite E. reflexivity.
  - assert (E : existsb (N.eqb c) stop = false).
    { destruct (existsb (N.eqb c) stop) eqn:E; [|reflexivity]. apply existsb_exists in E as (x & Hx & Ex). apply N.eqb_eq in Ex. subst x. destruct (Ha c (or_introl eq_refl) Hx). }
    rewrite E, IH; [reflexivity|]. intros x Hx. apply Ha. right. exact Hx.
Qed.
Lemma s3_parse_url bucket key : bucket_ok bucket -> key_ok key -> s3_parse (s3_url bucket key) = (bucket, B "/" ++ key).
Proof.
  intros Hb Hk. unfold s3_parse, s3_url. change (skipn 3 (B "s3://" ++ bucket ++ B "/" ++ key)) with (B "//" ++ bucket ++ B "/" ++ key).
  assert (E : startswith (B "//") (B "//" ++ bucket ++ B "/" ++ key) = true) by (apply startswith_iff; eauto). rewrite E.
  change (skipn 2 (B "//" ++ bucket ++ B "/" ++ key)) with (bucket ++ B "/" ++ key). rewrite up_to_app.
  - rewrite <- (app_nil_r (B "/" ++ key)) at 1. rewrite up_to_app; [reflexivity| |left; reflexivity].
    intros c Hc. cbn [app B] in Hc. destruct Hc as [ <- |Hc]; [intros [H|[H|[]]]; discriminate|]. destruct (Hk c Hc) as [K1 K2]. intros [H|[H|[]]]; subst c; contradiction.
  - intros c Hc [H|[H|[H|[]]]]; subst c; destruct (Hb _ Hc) as (K1 & K2 & K3); contradiction.
  - right. exists 47%N, key. split; [reflexivity|left; reflexivity].
Qed.

Lemma filter_short {A} (f : A -> bool) l : List.length (filter f l) <= List.length l.
Proof. induction l as [|x l IH]; [reflexivity|]. cbn [filter]. destruct (f x); cbn [List.length]; lia. Qed.

(** ** C54 *)
Theorem C54_lists_every_key : forall (bucket pfx : bytes) (keys : list bytes) (s : service),
  bucket_ok bucket -> key_ok pfx -> in_order keys -> ~ In [] keys ->
  (forall n, keys_at s n = keys) -> (forall n, 0 < page_at s n) ->
  list_files (S (List.length keys)) s (s3_url bucket pfx) =
  Ret (map (s3_url bucket) (filter (fun k => startswith pfx k) keys)).
Proof.
  intros bucket pfx keys s Hb Hp Hs Hne Hk Hpg. unfold list_files. rewrite s3_parse_url by assumption.
  change (skipn 1 (B "/" ++ pfx)) with pfx.
  assert (Hso : forall n, in_order (keys_at s n)) by (intro n; rewrite Hk; exact Hs).
  assert (Hc : forall n, keys_at s n = keys_at s 0) by (intro n; rewrite !Hk; reflexivity).
  destruct (list_loop_ends s pfx Hso Hc Hpg (S (List.length keys)) 0 []) as [out E].
  { unfold wanted. rewrite Hk. pose proof (filter_short (fun k => startswith pfx k && key_ltb [] k) keys). lia. }
  rewrite E. cbn [omap]. do 2 f_equal. destruct (list_loop_result s pfx Hso _ _ _ _ E) as (R1 & R2 & R3).
  apply sorted_unique; [exact R1|apply sorted_filter; exact Hs|]. intro k. rewrite filter_In, startswith_iff. split.
  - intro H. destruct (R2 k H) as (A1 & _ & m & _ & A2). rewrite Hk in A2. auto.
  - intros [H1 H2]. apply R3; [intros m _; rewrite Hk; exact H1|exact H2|]. destruct k as [|c k]; [contradiction|constructor].
Qed.
(** while the bucket changes: nothing twice, in order, nothing that was never there, and every
    key that was there all the time *)
Theorem C54_changing_bucket : forall (bucket pfx : bytes) (s : service) fuel urls,
  bucket_ok bucket -> key_ok pfx -> (forall n, in_order (keys_at s n)) ->
  list_files fuel s (s3_url bucket pfx) = Ret urls ->
  exists listed, urls = map (s3_url bucket) listed /\ in_order listed /\ NoDup listed /\
    (forall k, In k listed -> under pfx k /\ exists n, In k (keys_at s n)) /\
    (forall k, k <> [] -> under pfx k -> (forall n, In k (keys_at s n)) -> In k listed).
Proof.
  intros bucket pfx s fuel urls Hb Hp Hs H. unfold list_files in H. rewrite s3_parse_url in H by assumption.
  change (skipn 1 (B "/" ++ pfx)) with pfx in H. destruct (list_loop fuel s 0 pfx []) as [out| |] eqn:E; try discriminate.
  cbn [omap] in H. injection H as <-. exists out. destruct (list_loop_result s pfx Hs _ _ _ _ E) as (R1 & R2 & R3).
  split; [reflexivity|]. split; [exact R1|]. split.
  - clear - R1. induction R1 as [|x l Hl IH Hx]; constructor; [|exact IH]. intro Hi. rewrite Forall_forall in Hx. exact (key_lt_irrefl _ (Hx _ Hi)).
  - split.
    + intros k Hk. destruct (R2 k Hk) as (A1 & _ & m & _ & A2). eauto.
    + intros k Hn Hu Hall. apply R3; [auto|exact Hu|]. destruct k; [contradiction|constructor].
Qed.
(** a listed file is opened by its name, unless its key contains ? or # *)
Theorem C54_listed_names_open : forall bucket key offset len, bucket_ok bucket -> key_ok key ->
  rq_bucket (open_url (s3_url bucket key) offset len) = bucket /\ rq_key (open_url (s3_url bucket key) offset len) = key.
Proof. intros bucket key offset len Hb Hk. unfold open_url. rewrite s3_parse_url by assumption. split; reflexivity. Qed.
Theorem C54_other_names_do_not : forall bucket a c b offset len, bucket_ok bucket -> key_ok a -> c = 63%N \/ c = 35%N ->
  rq_key (open_url (s3_url bucket (a ++ c :: b)) offset len) = a.
Proof.
  intros bucket a c b offset len Hb Ha Hc. unfold open_url, s3_parse, s3_url.
  change (skipn 3 (B "s3://" ++ bucket ++ B "/" ++ a ++ c :: b)) with (B "//" ++ bucket ++ B "/" ++ a ++ c :: b).
  assert (E : startswith (B "//") (B "//" ++ bucket ++ B "/" ++ a ++ c :: b) = true) by (apply startswith_iff; eauto). rewrite E.
  change (skipn 2 (B "//" ++ bucket ++ B "/" ++ a ++ c :: b)) with (bucket ++ B "/" ++ a ++ c :: b). rewrite up_to_app.
  - replace (B "/" ++ a ++ c :: b) with ((B "/" ++ a) ++ c :: b) by (rewrite <- app_assoc; reflexivity). rewrite up_to_app; [reflexivity| |].
    + intros x Hx. cbn [app B] in Hx. destruct Hx as [ <- |Hx]; [intros [H|[H|[]]]; discriminate|]. destruct (Ha x Hx) as [K1 K2]. intros [H|[H|[]]]; subst x; contradiction.
    + right. exists c, b. split; [reflexivity|]. destruct Hc as [ -> | -> ]; [left|right; left]; reflexivity.
  - intros x Hx [H|[H|[H|[]]]]; subst x; destruct (Hb _ Hx) as (K1 & K2 & K3); contradiction.
  - right. eexists; eexists. split; [reflexivity|left; reflexivity].
Qed.
(** the list of input files: s3 names are replaced by what they list, other names stay *)
Theorem C54_expand_files : forall fuel s files,
  (forall f, In f files -> startswith (B "s3:") f = true -> exists l, list_files fuel (s f) f = Ret l) ->
  exists out, expand_files fuel s files = Ret out /\
  out = flat_map (fun f => if startswith (B "s3:") f then match list_files fuel (s f) f with Ret l => l | _ => [] end else [f]) files.
Proof.
  intros fuel s files H. induction files as [|f files IH]; [exists []; split; reflexivity|].
  destruct IH as (out & E & ->); [intros g Hg; apply H; right; exact Hg|]. cbn [expand_files flat_map]. rewrite E.
  destruct (startswith (B "s3:") f) eqn:Es.
  - destruct (H f (or_introl eq_refl) Es) as [l El]. rewrite El. cbn [bind]. eauto.
  - cbn [bind]. eauto.
Qed.

(** ** C55 *)
Lemma dec_nat_inj a b : dec_nat a = dec_nat b -> a = b.
Proof. intro H. pose proof (py_int_dec_nat a) as Ha. rewrite H, py_int_dec_nat in Ha. injection Ha as Ha. lia. Qed.
Lemma dash_split a b x y : (forall c, In c a -> c <> 45%N) -> (forall c, In c b -> c <> 45%N) -> a ++ 45%N :: x = b ++ 45%N :: y -> a = b /\ x = y.
Proof.
  revert b. induction a as [|c a IH]; intros [|d b] Ha Hb H; cbn [app] in H.
  - injection H as ->. auto.
  - injection H as <- _. destruct (Hb 45%N (or_introl eq_refl) eq_refl).
  - injection H as -> _. destruct (Ha 45%N (or_introl eq_refl) eq_refl).
  - injection H as <- H. destruct (IH b) as [ -> -> ]; [intros x' Hx; apply Ha; right; exact Hx|intros x' Hx; apply Hb; right; exact Hx|exact H|auto].
Qed.
Lemma dec_no_dash n c : In c (dec_nat n) -> c <> 45%N.
Proof. intros H ->. apply dec_N_digits in H. discriminate. Qed.
Theorem C55_range_is_one_too_long : forall url offset len obj answer,
  served (rq_range (open_url url (Some offset) (Some len))) obj answer ->
  answer = firstn (len + 1) (skipn offset obj).
Proof.
  intros url offset len obj answer H. unfold open_url in H. destruct (s3_parse url) as [bucket path]. cbn [rq_range] in H.
  inversion H as [|first o Hf E Eo Ea|first last o Hl Hf E Eo Ea]; subst o; try apply app_inv_head in E; change (B "-") with [45%N] in E; cbn [app] in E.
  - exfalso. apply (dash_split _ _ [] _ (dec_no_dash _) (dec_no_dash _)) in E as [_ E]. symmetry in E. unfold dec_nat in E. apply dec_N_nonempty in E. exact E.
  - apply (dash_split _ _ _ _ (dec_no_dash _) (dec_no_dash _)) in E as [E1 E2]. apply dec_nat_inj in E1, E2. subst first last.
    f_equal. lia.
Qed.
Theorem C55_open_range : forall url offset obj answer,
  served (rq_range (open_url url (Some offset) None)) obj answer -> answer = skipn offset obj.
Proof.
  intros url offset obj answer H. unfold open_url in H. destruct (s3_parse url) as [bucket path]. cbn [rq_range] in H.
  inversion H as [|first o Hf E Eo Ea|first last o Hl Hf E Eo Ea]; subst o; try apply app_inv_head in E; change (B "-") with [45%N] in E; cbn [app] in E.
  - apply (dash_split _ _ [] [] (dec_no_dash _) (dec_no_dash _)) in E as [E _]. apply dec_nat_inj in E. subst first. reflexivity.
  - exfalso. apply (dash_split _ _ _ [] (dec_no_dash _) (dec_no_dash _)) in E as [_ E]. unfold dec_nat in E. apply dec_N_nonempty in E. exact E.
Qed.
(** a length without an offset is ignored *)
Theorem C55_no_offset_reads_all : forall url len obj answer,
  served (rq_range (open_url url None len)) obj answer -> answer = obj.
Proof. intros url len obj answer H. unfold open_url in H. destruct (s3_parse url). inversion H; reflexivity. Qed.

(** ** concrete cases *)
Definition ex_keys : list bytes := map B ["a/1.warc"; "a/2.warc"; "a/3.warc"; "b"]%string.
Lemma key_ltb_sorted l : forallb (fun p => key_ltb (fst p) (snd p)) (combine l (tl l)) = true -> in_order l.
Proof.
  intro H. apply Sorted_StronglySorted; [exact key_lt_trans|]. induction l as [|x l IH]; [constructor|]. destruct l as [|y l]; [repeat constructor|].
  cbn in H. apply andb_true_iff in H as [H1 H2]. constructor; [apply IH; exact H2|]. constructor. apply key_ltb_iff. exact H1.
Qed.
Example C54_hypotheses_met :
  bucket_ok (B "bucket") /\ key_ok (B "a/") /\ in_order ex_keys /\ ~ In [] ex_keys /\
  list_files 5 (mksvc (fun _ => ex_keys) (fun _ => 1)) (s3_url (B "bucket") (B "a/")) =
  Ret (map B ["s3://bucket/a/1.warc"; "s3://bucket/a/2.warc"; "s3://bucket/a/3.warc"]%string) /\
  list_files 5 (mksvc (fun n => match n with 1 => map B ["a/1.warc"; "a/2.warc"; "a/25"]%string | _ => ex_keys end) (fun _ => 2)) (s3_url (B "bucket") (B "a/")) =
  Ret (map B ["s3://bucket/a/1.warc"; "s3://bucket/a/2.warc"; "s3://bucket/a/25"]%string).
Proof.
  split; [intros c Hc; cbn in Hc; repeat (destruct Hc as [ <- |Hc]; [repeat split; discriminate|]); destruct Hc|].
  split; [intros c Hc; cbn in Hc; repeat (destruct Hc as [ <- |Hc]; [repeat split; discriminate|]); destruct Hc|].
  split; [apply key_ltb_sorted; reflexivity|]. split; [|split; reflexivity].
  cbn. intros H. repeat (destruct H as [H|H]; [discriminate|]). exact H.
Qed.
Example C55_hypotheses_met :
  rq_range (open_url (B "s3://b/k") (Some 2) (Some 3)) = Some (B "bytes=2-5") /\
  served (Some (B "bytes=2-5")) (B "0123456789") (B "2345").
Proof. split; [reflexivity|]. apply (ServedRange 2 5 (B "0123456789")); cbn; lia. Qed.
