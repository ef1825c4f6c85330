(** * Theorems: the transpiler page (C99), the menu, edit link and theme of the
    documentation (C100) *)
From Coq Require Import ZArith List Bool String Ascii Lia.
From Verif Require Import DocsSite.
Import ListNotations.
Open Scope string_scope.

(** ** C99 *)
(** After any edits the page shows what the parser says of the text now in the
    editor: its result, or its error and no result. *)
Theorem C99_current : forall (R E : Type) (parse : parser R E) code p vs, first parse code = Some p ->
  drawn (fold_left (fun p v => changed parse v p) vs p) = parse (last vs code).
Proof.
  intros R E parse code p vs F. assert (G : drawn p = parse code). { unfold first in F. destruct (parse code); [|discriminate]. injection F as <-. reflexivity. }
  clear F. induction vs as [|v vs IH] using rev_ind; [exact G|]. rewrite fold_left_app, last_last. cbn [fold_left].
  unfold changed, change. destruct (parse v); reflexivity.
Qed.
(** Whenever React draws between the two setters, it draws the page of the text
    before or of the text after. *)
Theorem C99_no_mix : forall (R E : Type) (parse : parser R E) v p q, In q (change parse v p) -> drawn q = drawn p \/ drawn q = drawn (changed parse v p).
Proof.
  intros R E parse v p q H. unfold changed. unfold change in *. destruct (parse v).
  - destruct H as [<-|[<-|[]]]; [|right; reflexivity]. unfold drawn. cbn [error result last]. destruct (error p); [left|right]; reflexivity.
  - destruct H as [<-|[]]. right. reflexivity.
Qed.
(** Specification: [sub a b]: [a] is [b] with some elements left out. *)
Inductive sub {A : Type} : list A -> list A -> Prop :=
| Sub_nil : sub [] []
| Sub_keep : forall x a b, sub a b -> sub (x :: a) (x :: b)
| Sub_drop : forall x a b, sub a b -> sub a (x :: b).
Definition named (l : list (option (string * Z))) : list (string * Z) := flat_map (fun o => match o with Some x => [x] | None => [] end) l.

(** the table, without indices *)
Fixpoint firsts (seen : list string) (l : list (string * Z)) : list (string * Z) :=
  match l with [] => [] | x :: l' => if existsb (String.eqb (fst x)) seen then firsts seen l' else x :: firsts (fst x :: seen) l' end.
Lemma find_index_app : forall n a b, find_index n (a ++ b) = if existsb (String.eqb n) (map fst a) then find_index n a else (List.length a + find_index n b)%nat.
Proof.
  intros n a b. induction a as [|(m, z) a IH]; [reflexivity|]. cbn [app find_index map fst existsb List.length]. rewrite (String.eqb_sym n m).
  destruct (String.eqb m n); [reflexivity|]. cbn [orb]. rewrite IH. destruct (existsb _ _); [reflexivity|]. lia.
Qed.
Lemma find_index_lt : forall n a, existsb (String.eqb n) (map fst a) = true -> (find_index n a < List.length a)%nat.
Proof.
  intros n a. induction a as [|(m, z) a IH]; [discriminate|]. cbn [find_index map fst existsb List.length]. rewrite (String.eqb_sym n m). destruct (String.eqb m n); [lia|]. cbn [orb]. intros H. specialize (IH H). lia.
Qed.
Lemma existsb_perm : forall (f : string -> bool) a b, (forall x, In x a <-> In x b) -> existsb f a = existsb f b.
Proof.
  intros f a b H. apply eq_true_iff_eq. rewrite !existsb_exists. split; intros (x & X & Y); exists x; (split; [apply H; exact X|exact Y]).
Qed.
Lemma firsts_seen : forall l s t, (forall x, In x s <-> In x t) -> firsts s l = firsts t l.
Proof.
  induction l as [|x l IH]; intros s t H; [reflexivity|]. cbn [firsts]. rewrite (existsb_perm _ s t H). destruct (existsb _ t); [apply IH; exact H|].
  rewrite (IH (fst x :: s) (fst x :: t)); [reflexivity|]. intros y. cbn [In]. rewrite H. reflexivity.
Qed.
Lemma table_from : forall b a, map snd (filter (fun ix => Nat.eqb (fst ix) (find_index (fst (snd ix)) (a ++ b))) (combine (seq (List.length a) (List.length b)) b)) = firsts (map fst a) b.
Proof.
  induction b as [|x b IH]; intros a; [reflexivity|]. cbn [List.length seq combine filter fst snd firsts].
  assert (S1 : S (List.length a) = List.length (a ++ [x])) by (rewrite app_length; cbn; lia).
  assert (A1 : (a ++ x :: b = (a ++ [x]) ++ b)%list) by (rewrite <- app_assoc; reflexivity).
  rewrite (find_index_app (fst x)). destruct x as (n, z). cbn [fst find_index]. rewrite String.eqb_refl.
  destruct (existsb (String.eqb n) (map fst a)) eqn:Ex.
  - assert (Ne : Nat.eqb (List.length a) (find_index n a) = false) by (apply Nat.eqb_neq; pose proof (find_index_lt n a Ex); lia). rewrite Ne.
    rewrite S1, A1, IH. apply firsts_seen. intros y. rewrite map_app, in_app_iff. cbn [map fst In]. split; [|tauto]. intros [H|[<-|[]]]; [exact H|].
    apply existsb_exists in Ex. destruct Ex as (w & W & E). apply String.eqb_eq in E. subst w. exact W.
  - rewrite Nat.add_0_r, Nat.eqb_refl. cbn [map snd]. apply (f_equal (cons (n, z))). rewrite S1, A1, IH. apply firsts_seen. intros y. rewrite map_app, in_app_iff. cbn [map fst In]. tauto.
Qed.
Lemma table_firsts : forall l, table l = firsts [] (named l).
Proof. intros l. exact (table_from (named l) []). Qed.
Lemma firsts_sub : forall l s, sub (firsts s l) l.
Proof. induction l as [|x l IH]; intros s; cbn [firsts]; [constructor|]. destruct (existsb _ s); constructor; apply IH. Qed.
Lemma firsts_fresh : forall l s n, In n (map fst (firsts s l)) -> ~ In n s.
Proof.
  induction l as [|x l IH]; intros s n H; cbn [firsts] in H; [destruct H|]. destruct (existsb (String.eqb (fst x)) s) eqn:Ex; [exact (IH s n H)|].
  destruct H as [<-|H].
  - intros X. enough (existsb (String.eqb (fst x)) s = true) by congruence. apply existsb_exists. exists (fst x). split; [exact X|apply String.eqb_refl].
  - intros X. apply (IH _ _ H). right. exact X.
Qed.
Lemma firsts_nodup : forall l s, NoDup (map fst (firsts s l)).
Proof.
  induction l as [|x l IH]; intros s; cbn [firsts]; [constructor|]. destruct (existsb _ s); [apply IH|]. cbn [map]. constructor; [|apply IH].
  intros H. apply (firsts_fresh _ _ _ H). left. reflexivity.
Qed.
Lemma firsts_all : forall l s n, In n (map fst l) -> In n s \/ In n (map fst (firsts s l)).
Proof.
  induction l as [|x l IH]; intros s n H; [destruct H|]. cbn [firsts]. destruct (existsb (String.eqb (fst x)) s) eqn:Ex.
  - destruct H as [<-|H]; [|exact (IH s n H)]. left. apply existsb_exists in Ex. destruct Ex as (w & W & E). apply String.eqb_eq in E. subst w. exact W.
  - cbn [map In]. destruct H as [<-|H]; [auto|]. destruct (IH (fst x :: s) n H) as [[X|X]|X]; auto.
Qed.
Lemma firsts_first : forall l s x, In x (firsts s l) -> exists a b, (l = a ++ x :: b)%list /\ ~ In (fst x) (map fst a).
Proof.
  induction l as [|y l IH]; intros s x H; [destruct H|]. cbn [firsts] in H. destruct (existsb (String.eqb (fst y)) s) eqn:Ex.
  - destruct (IH s x H) as (a & b & -> & N). exists (y :: a), b. split; [reflexivity|]. intros [X|X]; [|exact (N X)].
    assert (F : In (fst x) (map fst (firsts s (a ++ x :: b)))) by (apply in_map; exact H). apply firsts_fresh in F. apply F.
    apply existsb_exists in Ex. destruct Ex as (w & W & E). apply String.eqb_eq in E. subst w. rewrite <- X. exact W.
  - destruct H as [<-|H]; [exists [], l; split; [reflexivity|intros []]|]. destruct (IH _ x H) as (a & b & -> & N). exists (y :: a), b. split; [reflexivity|]. intros [X|X]; [|exact (N X)].
    assert (F : In (fst x) (map fst (firsts (fst y :: s) (a ++ x :: b)))) by (apply in_map; exact H). apply firsts_fresh in F. apply F. left. exact X.
Qed.
(** The tables of variables and of labels: every name once, in the order of the
    program, each with the address it has where it appears first. *)
Theorem C99_tables : forall l, NoDup (map fst (table l)) /\ sub (table l) (named l) /\
  (forall n, In n (map fst (table l)) <-> In n (map fst (named l))) /\
  (forall x, In x (table l) -> exists a b, (named l = a ++ x :: b)%list /\ ~ In (fst x) (map fst a)).
Proof.
  intros l. rewrite table_firsts. split; [apply firsts_nodup|]. split; [apply firsts_sub|]. split.
  - intros n. split; intros H.
    + apply in_map_iff in H. destruct H as (x & <- & H). apply in_map. destruct (firsts_first _ _ _ H) as (a & b & -> & _). apply in_or_app. right. left. reflexivity.
    + destruct (firsts_all _ [] n H) as [[]|X]. exact X.
  - intros x H. exact (firsts_first _ _ _ H).
Qed.
(** A parser that can fail, and a table with a repeated name. *)
Example C99_nonvacuous :
  let parse := fun s => if String.eqb s "bad" then inr 1%Z else inl (String.length s) in
  (exists p, first parse "abc" = Some p /\ drawn (fold_left (fun p v => changed parse v p) ["bad"; "ab"] p) = inl 2%nat /\ drawn (fold_left (fun p v => changed parse v p) ["ab"; "bad"] p) = inr 1%Z) /\
  table [Some ("x", 1%Z); None; Some ("y", 2%Z); Some ("x", 3%Z)] = [("x", 1%Z); ("y", 2%Z)].
Proof. cbv zeta. split; [|reflexivity]. eexists. split; [reflexivity|]. split; reflexivity. Qed.

(** ** C100: the menu *)
(** Specification: the menu read from the top. *)
Definition read_menu (m : list section) : list entry := flat_map (fun s => Header (fst s) :: map (fun x => Link (fst x) (snd x)) (snd s)) m.
Lemma push_last_snoc : forall x col t ch, push_last x (col ++ [(t, ch)]) = Some (col ++ [(t, (ch ++ [x])%list)])%list.
Proof.
  intros x col t ch. induction col as [|s col IH]; [reflexivity|]. cbn [app push_last]. rewrite IH. destruct s as (a, b). destruct (col ++ [(t, ch)])%list eqn:E; [destruct col; discriminate E|reflexivity].
Qed.
Lemma read_app : forall a b, read_menu (a ++ b) = (read_menu a ++ read_menu b)%list.
Proof. intros. apply flat_map_app. Qed.
Lemma reduce_reads : forall l i col s, exists m, reduce_from (S i) (Some (col ++ [s])%list) l = Some m /\ read_menu m = (read_menu (col ++ [s]) ++ l)%list.
Proof.
  induction l as [|x l IH]; intros i col s; cbn [reduce_from].
  - eexists. split; [reflexivity|]. rewrite app_nil_r. reflexivity.
  - destruct x as [t|t k]; cbn [grouped].
    + destruct (IH (S i) (col ++ [s])%list (t, [])) as (m & E & M). exists m. split; [exact E|]. rewrite M, !read_app. cbn. rewrite <- !app_assoc. reflexivity.
    + destruct s as (t0, ch). rewrite push_last_snoc. destruct (IH (S i) col (t0, (ch ++ [(t, k)])%list)) as (m & E & M). exists m. split; [exact E|].
      rewrite M, !read_app. cbn. rewrite !app_nil_r, map_app. cbn. rewrite <- !app_assoc. cbn. rewrite <- app_assoc. reflexivity.
Qed.
(** The menu can be built from any list, and read from the top it is that list; if
    the list does not begin with a header, after an empty title. *)
Theorem C100_menu : forall l, exists m, sections l = Some m /\
  read_menu m = match l with Link _ _ :: _ => Header "" :: l | _ => l end.
Proof.
  intros [|x l]; [exists []; split; reflexivity|]. unfold sections. cbn [reduce_from]. destruct x as [t|t k]; cbn [grouped app push_last].
  - destruct (reduce_reads l 0 [] (t, [])) as (m & E & M). exists m. split; [exact E|exact M].
  - destruct (reduce_reads l 0 [] ("", [(t, k)])) as (m & E & M). exists m. split; [exact E|exact M].
Qed.

(** Characters and texts: neither dots nor line breaks. *)
Fixpoint plain (s : string) : Prop := match s with EmptyString => True | String c r => c <> "."%char /\ is_break c = false /\ plain r end.
Lemma rest_plain : forall s, plain s -> rest_of_line s = "".
Proof. induction s as [|c s IH]; intros P; [reflexivity|]. destruct P as (_ & B & P). cbn. rewrite B. auto. Qed.
Lemma cut_plain : forall s, plain s -> cut_dot s = s.
Proof. induction s as [|c s IH]; intros P; [reflexivity|]. destruct P as (N & B & P). cbn. destruct (Ascii.eqb_spec c "."); [contradiction|]. rewrite IH by exact P. reflexivity. Qed.
Lemma cut_suffix : forall s t, plain s -> plain t -> cut_dot (s ++ "." ++ t) = s.
Proof.
  induction s as [|c s IH]; intros t P Q; cbn.
  - apply rest_plain. exact Q.
  - destruct P as (N & B & P). destruct (Ascii.eqb_spec c "."); [contradiction|]. f_equal. apply IH; assumption.
Qed.
(** On the page of a link, with or without an ending such as .html, that link and no
    other is marked. *)
Theorem C100_current : forall link other ending, plain link -> plain ending ->
  is_current ("/" ++ link) other = String.eqb link other /\ is_current ("/" ++ link ++ "." ++ ending) other = String.eqb link other.
Proof.
  intros link other ending P Q. assert (P1 : plain ("/" ++ link)) by (cbn; repeat split; [discriminate|exact P]). unfold is_current, current_page. split.
  - rewrite cut_plain by exact P1. reflexivity.
  - change ("/" ++ link ++ "." ++ ending) with (("/" ++ link) ++ "." ++ ending). rewrite cut_suffix by assumption. reflexivity.
Qed.
Theorem C100_dotted_refuted : ~ (forall link, is_current ("/" ++ link) link = true).
Proof. intros H. specialize (H "es/v1.2"). discriminate H. Qed.

(** ** The link to the source *)
Lemma sapp_assoc : forall a b c, ((a ++ b) ++ c = a ++ (b ++ c))%string.
Proof. induction a as [|x a IH]; intros; [reflexivity|]. cbn. rewrite IH. reflexivity. Qed.
Lemma last_part_plain : forall s acc, plain s -> last_part s acc = acc.
Proof. induction s as [|c s IH]; intros acc P; [reflexivity|]. destruct P as (N & _ & P). cbn. destruct (Ascii.eqb_spec c "."); [contradiction|]. auto. Qed.
Lemma last_part_dot : forall s t acc, plain t -> last_part (s ++ "." ++ t) acc = t.
Proof.
  induction s as [|c s IH]; intros t acc P.
  - cbn. apply last_part_plain. exact P.
  - cbn [append last_part]. destruct (Ascii.eqb c "."); apply (IH t); exact P.
Qed.
Fixpoint last_char (s : string) (d : ascii) : ascii := match s with EmptyString => d | String c r => last_char r c end.
Lemma drop_other : forall s d, last_char s d <> "/"%char -> drop_slash s = s.
Proof.
  induction s as [|c s IH]; intros d H; [reflexivity|]. cbn [last_char] in H. destruct s as [|c' s].
  - cbn in *. destruct (Ascii.eqb_spec c "/"); [contradiction|reflexivity].
  - cbn [drop_slash] in *. rewrite (IH c H). reflexivity.
Qed.
(** The edit link of the page made from the file src/pages/NAME.EXT leads to that file. *)
Theorem C100_edit : forall name ext dir, plain name -> plain ext -> name <> "" -> last_char name "a" <> "/"%char ->
  let file := dir ++ "/src/pages/" ++ name ++ "." ++ ext in
  let target := "https://github.com/nullxx/mpp/tree/master/docs/src/pages/" ++ name ++ "." ++ ext in
  edit_url ("/" ++ name) file = target /\ edit_url ("/" ++ name ++ ".html") file = target.
Proof.
  intros name ext dir P Q Ne L. cbv zeta.
  assert (P1 : plain ("/" ++ name)) by (cbn; repeat split; [discriminate|exact P]).
  assert (X : extension (dir ++ "/src/pages/" ++ name ++ "." ++ ext) = ext).
  { unfold extension. rewrite <- (sapp_assoc "/src/pages/" name), <- (sapp_assoc dir). apply last_part_dot. exact Q. }
  assert (D : drop_slash ("/" ++ name) = "/" ++ name).
  { apply (drop_other _ "a"). destruct name as [|c name]; [congruence|]. exact L. }
  unfold edit_url, current_page. rewrite X. split.
  - rewrite cut_plain by exact P1. rewrite D. reflexivity.
  - change ("/" ++ name ++ ".html") with (("/" ++ name) ++ "." ++ "html"). rewrite cut_suffix; [|exact P1|cbn; repeat split; discriminate]. rewrite D. reflexivity.
Qed.
(** Not for the index file of a folder, served under the name of the folder. *)
Theorem C100_edit_index_refuted : ~ (forall folder, edit_url ("/" ++ folder ++ "/") ("src/pages/" ++ folder ++ "/index.md") = "https://github.com/nullxx/mpp/tree/master/docs/src/pages/" ++ folder ++ "/index.md").
Proof. intros H. specialize (H "es"). discriminate H. Qed.

(** ** The theme *)
Definition run (es : list happening) (s : site) : site := fold_left (fun s e => happens e s) es s.
(** What the site itself stores, or nothing. *)
Definition proper_store (st : option string) : Prop := st = None \/ st = Some "" \/ st = Some "light" \/ st = Some "dark".
(** Every page has at most one pair of buttons. *)
Fixpoint one_pair (es : list happening) (s : site) : Prop :=
  match es with [] => True | e :: es' => (e = Appears -> on s = []) /\ one_pair es' (happens e s) end.
Definition is_click (e : happening) : bool := match e with Clicks _ _ => true | _ => false end.

Definition paired (s : site) : Prop := proper_store (stored s) /\
  (on s = [] /\ ticked s = None \/
   exists t, known t = true /\ on s = [t] /\ ticked s = Some (O, t) /\ dark s = String.eqb t "dark" /\ (truthy (stored s) = None \/ stored s = Some t)).
Lemma known_cases : forall t, known t = true -> t = "light" \/ t = "dark".
Proof. intros t H. unfold known in H. apply orb_prop in H. destruct H as [H|H]; apply String.eqb_eq in H; auto. Qed.
Lemma truthy_known : forall st p, proper_store st -> known (initial_theme st p) = true /\ (truthy st = None \/ st = Some (initial_theme st p)).
Proof. intros st p [->|[->|[->| ->]]]; destruct p; split; try reflexivity; auto. Qed.
Lemma paired_step : forall e s, paired s -> (e = Appears -> on s = []) -> paired (happens e s).
Proof.
  intros e s (P & H) A. destruct e as [| |i t|p]; cbn [happens].
  - split; [exact P|]. left. split; reflexivity.
  - specialize (A eq_refl). unfold hydrate. destruct (truthy_known (stored s) (prefers s) P) as (K & T). split; [exact P|]. right. cbn [on ticked dark stored].
    exists (initial_theme (stored s) (prefers s)). split; [exact K|]. rewrite A, K. split; [reflexivity|]. split; [reflexivity|]. split; [|exact T].
    destruct (known_cases _ K) as [-> | ->]; reflexivity.
  - destruct (known t) eqn:K; [|split; assumption]. unfold click. destruct H as [(O & N)|(u & Ku & O & Tk & D & S)].
    + rewrite O. destruct i; cbn; (split; [exact P|]); left; auto.
    + rewrite O, Tk. destruct i as [|i]; cbn [nth_error]; [|destruct i; cbn; (split; [exact P|]); right; exists u; auto].
      cbn [Nat.eqb andb]. destruct (String.eqb_spec t u) as [Et|N].
      * split; [exact P|]. right. exists u. auto.
      * destruct (String.eqb_spec u t) as [Et|_]; [congruence|]. split; cbn [stored on ticked dark put].
        { destruct (known_cases _ K) as [-> | ->]; unfold proper_store; auto. }
        right. exists t. split; [exact K|]. split; [reflexivity|]. split; [reflexivity|]. split; [|right; reflexivity]. destruct (known_cases _ K) as [-> | ->]; reflexivity.
  - split; [exact P|exact H].
Qed.
Lemma paired_run : forall es s, paired s -> one_pair es s -> paired (run es s).
Proof. induction es as [|e es IH]; intros s P O; [exact P|]. destruct O as (O1 & O2). exact (IH _ (paired_step e s P O1) O2). Qed.
Lemma paired_visit : forall st p, proper_store st -> paired (visit st p).
Proof. intros st p H. split; [exact H|]. left. split; reflexivity. Qed.
(** Whatever the reader does, the button that is checked is that of the theme the
    page has. *)
Theorem C100_theme_shown : forall st p es s, proper_store st -> one_pair es (visit st p) -> s = run es (visit st p) -> on s <> [] ->
  exists t, known t = true /\ on s = [t] /\ ticked s = Some (O, t) /\ dark s = String.eqb t "dark".
Proof.
  intros st p es s H O -> N. destruct (paired_run es _ (paired_visit st p H) O) as (_ & [(X & _)|(t & K & A & B & C & _)]); [contradiction|]. exists t. auto.
Qed.
Lemma one_pair_app : forall a b s, one_pair (a ++ b) s -> one_pair a s /\ one_pair b (run a s).
Proof. induction a as [|e a IH]; intros b s H; [split; [exact I|exact H]|]. destruct H as (H1 & H2). destruct (IH b _ H2) as (H3 & H4). split; [split; assumption|exact H4]. Qed.
Lemma kept : forall fs s t, (forall e, In e fs -> is_click e = false) -> stored s = Some t -> known t = true -> dark s = String.eqb t "dark" ->
  stored (run fs s) = Some t /\ dark (run fs s) = String.eqb t "dark".
Proof.
  induction fs as [|e fs IH]; intros s t H S K D; [split; assumption|]. cbn [run fold_left]. apply IH; [intros e' He'; apply H; right; exact He'|..].
  - specialize (H e (or_introl eq_refl)). destruct e; try discriminate H; exact S.
  - exact K.
  - specialize (H e (or_introl eq_refl)). destruct e; try discriminate H; cbn [happens open_page hydrate dark]; rewrite ?S; try exact D; destruct (known_cases _ K) as [-> | ->]; reflexivity.
Qed.
(** A theme chosen with a button is the theme from then on, on every page, whatever
    the system prefers, until another is chosen. *)
Theorem C100_theme_chosen : forall st p es t fs, proper_store st -> one_pair es (visit st p) -> known t = true ->
  on (run es (visit st p)) <> [] -> ticked (run es (visit st p)) <> Some (O, t) -> (forall e, In e fs -> is_click e = false) ->
  dark (run (es ++ Clicks 0 t :: fs) (visit st p)) = String.eqb t "dark".
Proof.
  intros st p es t fs H Op K N T F. unfold run. rewrite fold_left_app. cbn [fold_left]. fold (run es (visit st p)). set (s := run es (visit st p)) in *.
  destruct (paired_run es _ (paired_visit st p H) Op) as (_ & [(X & _)|(u & Ku & A & B & C & _)]); [contradiction|]. fold s in A, B, C.
  assert (Nu : t <> u) by (intros ->; apply T; exact B).
  assert (E : happens (Clicks 0 t) s = mkSite (Some t) (prefers s) (effect t) [t] (Some (O, t))).
  { cbn [happens]. rewrite K. unfold click. rewrite A, B. cbn [nth_error Nat.eqb andb put]. destruct (String.eqb_spec t u); [contradiction|]. destruct (String.eqb_spec u t); [congruence|]. reflexivity. }
  rewrite E. apply (kept fs _ t F); [reflexivity|exact K|]. cbn [dark]. destruct (known_cases _ K) as [-> | ->]; reflexivity.
Qed.
(** Before the buttons appear the page has the theme they will show, unless the
    preference changes in between. *)
Theorem C100_no_flash : forall st p, proper_store st -> dark (hydrate (visit st p)) = dark (visit st p).
Proof. intros st p [->|[->|[->| ->]]]; destruct p; reflexivity. Qed.
(** Choosing the theme that is checked already is not remembered. *)
Theorem C100_theme_same_refuted : ~ (forall st p es t fs, proper_store st -> one_pair es (visit st p) -> known t = true -> on (run es (visit st p)) <> [] ->
  (forall e, In e fs -> is_click e = false) -> dark (run (es ++ Clicks 0 t :: fs) (visit st p)) = String.eqb t "dark").
Proof.
  intros H. specialize (H None true [Appears] "dark" [Prefers false; Opens]). cbn in H. discriminate H.
  - left. reflexivity.
  - split; [reflexivity|exact I].
  - reflexivity.
  - discriminate.
  - intros e [<-|[<-|[]]]; reflexivity.
Qed.
(** Every page has two pairs of buttons, one for narrow windows.  Once both have
    appeared, a choice can be stored and not shown. *)
Theorem C100_two_pairs_refuted : ~ (forall st p es t, proper_store st -> known t = true -> ticked (run es (visit st p)) <> Some (O, t) -> on (run es (visit st p)) <> [] ->
  dark (run (es ++ [Clicks 0 t]) (visit st p)) = String.eqb t "dark").
Proof.
  intros H. specialize (H None false [Appears; Appears; Clicks 1 "dark"] "light" (or_introl eq_refl) eq_refl). cbn in H.
  assert (X : true = false); [apply H; discriminate|discriminate X].
Qed.
(** A stored text of another origin gives a dark page without a checked button. *)
Theorem C100_other_store_refuted : dark (visit (Some "auto") false) = false /\ dark (hydrate (visit (Some "auto") false)) = true /\ ticked (hydrate (visit (Some "auto") false)) = None.
Proof. repeat split. Qed.
Example C100_nonvacuous :
  plain "es/instructions/MOV" /\ last_char "es/instructions/MOV" "a" <> "/"%char /\
  (exists es, one_pair es (visit None true) /\ on (run es (visit None true)) = ["light"] /\ ticked (run es (visit None true)) <> Some (O, "dark") /\ List.length es = 5%nat) /\
  sections [Link "a" "b"; Header "c"; Link "d" "e"; Link "f" "g"] = Some [("", [("a", "b")]); ("c", [("d", "e"); ("f", "g")])].
Proof.
  split; [cbn; repeat split; discriminate|]. split; [discriminate|]. split; [|reflexivity].
  exists [Appears; Clicks 0 "light"; Prefers false; Opens; Appears]. cbn. repeat split; discriminate.
Qed.

Print Assumptions C99_current.
Print Assumptions C99_no_mix.
Print Assumptions C99_tables.
Print Assumptions C100_menu.
Print Assumptions C100_current.
Print Assumptions C100_dotted_refuted.
Print Assumptions C100_edit.
Print Assumptions C100_edit_index_refuted.
Print Assumptions C100_theme_shown.
Print Assumptions C100_theme_chosen.
Print Assumptions C100_no_flash.
Print Assumptions C100_theme_same_refuted.
Print Assumptions C100_two_pairs_refuted.
Print Assumptions C100_other_store_refuted.
