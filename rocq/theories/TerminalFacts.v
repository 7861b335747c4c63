(** * TerminalFacts: proofs about what stands on the terminal (C85) *)
From Verif Require Import RtLaws PyBase BaseFacts FS FSFacts Store SpecStore SpecShell SpecGdbms SpecMessagesRun Make Query Find FindFacts Confine ShellFacts Gdbms GdbmsFacts Messages SpecMessages MessagesRun MessagesRunFacts Terminal SpecTerminal.

(** ** runs at the terminal *)
Definition events {A} (x : list event * res A * world) : list event := fst (fst x).
Definition quiet {A} (x : list event * res A * world) : res A * world := (snd (fst x), snd x).
Lemma trun_bind {A B} (m : term A) (f : A -> term B) w : trun (tbind m f) w =
  match trun m w with
  | (es, Ok a, w1) => (es ++ events (trun (f a) w1), snd (fst (trun (f a) w1)), snd (trun (f a) w1))
  | (es, Err e, w1) => (es, Err e, w1)
  end.
Proof.
  revert w; induction m as [a|e|c k IH|p k IH]; intros w; cbn [tbind trun]; [destruct (trun (f a) w) as [[es x] w2]; reflexivity|reflexivity| |].
  - destruct (exec c w) as [r w1]. rewrite IH. destruct (trun (k r) w1) as [[es [a|e]] w2]; destruct c; reflexivity.
  - destruct (w_in w) as [|s r]; [reflexivity|]. rewrite IH. destruct (trun (k s) _) as [[es [a|e]] w2]; reflexivity.
Qed.
Lemma exec_prints c w : w_out (snd (exec c w)) = w_out w ++ match c with CPrint t => [t] | _ => [] end.
Proof. destruct c; cbn [exec]; repeat (match goal with |- context [match ?x with _ => _ end] => destruct x end); cbn [snd w_out with_fs]; rewrite ?app_nil_r; reflexivity. Qed.
Lemma trun_plainly {A} (m : io A) w : exists ts, trun (plainly m) w = (map Wrote ts, fst (run m w), snd (run m w)) /\ w_out (snd (run m w)) = w_out w ++ ts.
Proof.
  revert w; induction m as [a|e|c k IH]; intros w; cbn [plainly trun run].
  1-2: exists []; cbn [map fst snd]; rewrite app_nil_r; auto.
  pose proof (exec_prints c w) as P. destruct (exec c w) as [r w1]. cbn [snd] in P. destruct (IH r w1) as (ts & -> & E). cbn beta iota. rewrite P in E.
  destruct c; try (exists ts; rewrite app_nil_r in E; split; [reflexivity|exact E]). exists (t :: ts). rewrite <- app_assoc in E. split; [reflexivity|exact E].
Qed.
Lemma trun_line t w : trun (line t) w = ([Wrote t], Ok tt, says t w).
Proof. reflexivity. Qed.
Lemma trun_ask p w : trun (ask p) w = match w_in w with [] => ([Asked p None], Err EOFError, w) | s :: r => ([Asked p (Some s)], Ok s, rest r w) end.
Proof. reflexivity. Qed.

(** whatever the program: the lines printed are the output *)
Lemma wrote_app a b : wrote (a ++ b) = wrote a ++ wrote b.
Proof. apply flat_map_app. Qed.
Lemma prompts_app a b : prompts (a ++ b) = prompts a ++ prompts b.
Proof. apply flat_map_app. Qed.
Lemma typed_app a b : typed (a ++ b) = typed a ++ typed b.
Proof. apply flat_map_app. Qed.
Lemma wrote_lines ts : wrote (map Wrote ts) = ts.
Proof. induction ts as [|t ts IH]; [reflexivity|]. change (t :: wrote (map Wrote ts) = t :: ts). rewrite IH. reflexivity. Qed.
Lemma prompts_lines ts : prompts (map Wrote ts) = [].
Proof. induction ts; auto. Qed.
Lemma typed_lines ts : typed (map Wrote ts) = [].
Proof. induction ts; auto. Qed.
Lemma trun_out {A} (m : term A) w : w_out (snd (trun m w)) = w_out w ++ wrote (events (trun m w)).
Proof.
  revert w; induction m as [a|e|c k IH|p k IH]; intros w; cbn [trun].
  1-2: cbn; rewrite app_nil_r; reflexivity.
  - pose proof (exec_prints c w) as P. destruct (exec c w) as [r w1]. cbn [snd] in P. specialize (IH r w1). rewrite P in IH.
    destruct (trun (k r) w1) as [[es x] w2]. unfold events in *. cbn [fst snd] in *. destruct c; rewrite IH, <- app_assoc; reflexivity.
  - destruct (w_in w) as [|s r]; [cbn; rewrite app_nil_r; reflexivity|]. specialize (IH s {| w_fs := w_fs w; w_in := r; w_out := w_out w |}).
    destruct (trun (k s) _) as [[es x] w2]. exact IH.
Qed.
(** a prompt that is not answered is the last thing that happens *)
Lemma trun_unanswered {A} (m : term A) w l1 e l2 : events (trun m w) = l1 ++ e :: l2 -> unanswered e ->
  l2 = [] /\ snd (fst (trun m w)) = Err EOFError /\ w_in (snd (trun m w)) = [].
Proof.
  revert w l1; induction m as [a|e0|c k IH|p k IH]; intros w l1; cbn [trun].
  1-2: destruct l1; discriminate.
  - destruct (exec c w) as [r w1]. specialize (IH r w1). destruct (trun (k r) w1) as [[es x] w2]. unfold events in *. cbn [fst snd] in *.
    destruct c; try (intros E; apply (IH l1 E)). intros E U. destruct l1 as [|e1 l1]; cbn [app] in E; injection E as <- E; [destruct U|]. apply (IH l1 E U).
  - destruct (w_in w) as [|s r] eqn:W.
    + unfold events; cbn [fst snd]. intros E _. destruct l1 as [|? [|? ?]]; cbn [app] in E; try discriminate. injection E as _ <-. auto.
    + specialize (IH s {| w_fs := w_fs w; w_in := r; w_out := w_out w |}). destruct (trun (k s) _) as [[es x] w2]. unfold events in *. cbn [fst snd] in *.
      intros E U. destruct l1 as [|e1 l1]; cbn [app] in E; injection E as <- E; [destruct U|]. apply (IH l1 E U).
Qed.

(** ** the same results and worlds as without prompts *)
Lemma quiet_bind {A B} (m : term A) (f : A -> term B) w : quiet (trun (tbind m f) w) = match quiet (trun m w) with (Ok a, w1) => quiet (trun (f a) w1) | (Err e, w1) => (Err e, w1) end.
Proof. rewrite trun_bind. destruct (trun m w) as [[es [a|e]] w1]; reflexivity. Qed.
Lemma quiet_plainly {A} (m : io A) w : quiet (trun (plainly m) w) = run m w.
Proof. destruct (trun_plainly m w) as (ts & -> & _). unfold quiet. cbn [fst snd]. symmetry. apply surjective_pairing. Qed.
Lemma quiet_ask p w : quiet (trun (ask p) w) = run (do_text CInput) w.
Proof. rewrite trun_ask, input_run. destruct (w_in w); reflexivity. Qed.
Lemma quiet_line t w : quiet (trun (line t) w) = run (do_unit (CPrint t)) w.
Proof. apply quiet_plainly. Qed.
Lemma create_quiet f dir : forall w, quiet (trun (create_new_dbms_t f dir) w) = run (create_new_dbms f dir) w.
Proof.
  induction f as [|f IH]; intros w; [reflexivity|]. cbn [create_new_dbms_t create_new_dbms]. rewrite quiet_bind, run_bind, quiet_ask.
  destruct (run (do_text CInput) w) as [[s|e] w1]; [|reflexivity]. rewrite quiet_bind, run_bind, quiet_plainly.
  match goal with |- context [run ?m w1] => destruct (run m w1) as [[[g|]|e] w2] end; [reflexivity|apply IH|reflexivity].
Qed.
Lemma existing_quiet f folder dir : forall w, quiet (trun (get_existing_gdbms_t f folder dir) w) = run (get_existing_gdbms f folder dir) w.
Proof.
  induction f as [|f IH]; intros w; [reflexivity|]. cbn [get_existing_gdbms_t get_existing_gdbms]. rewrite quiet_bind, run_bind, quiet_plainly.
  destruct (run (get_and_display_available_dbms folder) w) as [[c|e] w1]; [|reflexivity].
  assert (N : quiet (trun (let> _ := line (py "There are no databases, please create a new database.") in create_new_dbms_t f dir) w1) =
              run (let! _ := do_unit (CPrint (py "There are no databases, please create a new database.")) in create_new_dbms f dir) w1).
  { rewrite quiet_bind, run_bind, quiet_line. destruct (run (do_unit _) w1) as [[u|e] w2]; [apply create_quiet|reflexivity]. }
  destruct c as [[|kv d]|]; [exact N| |exact N]. clear N.
  rewrite quiet_bind, run_bind, quiet_ask. destruct (run (do_text CInput) w1) as [[s|e] w2]; [|reflexivity].
  destruct (d_get s (kv :: d)) as [n|]; rewrite quiet_bind, run_bind.
  - rewrite quiet_plainly. match goal with |- context [run ?m w2] => destruct (run m w2) as [[[g|]|e] w3] end; [reflexivity|apply IH|reflexivity].
  - rewrite quiet_line. destruct (run (do_unit _) w2) as [[u|e] w3]; [apply IH|reflexivity].
Qed.
Lemma select_quiet f folder w : quiet (trun (select_gdbms_t f folder) w) = run (select_gdbms f folder) w.
Proof.
  unfold select_gdbms_t, select_gdbms. rewrite quiet_bind, run_bind, quiet_ask. destruct (run (do_text CInput) w) as [[s|e] w1]; [|reflexivity].
  destruct (_ || _); [apply existing_quiet|apply create_quiet].
Qed.

(** ** the programs without [input] neither read nor stop for want of input *)
Inductive no_eof {A} : io A -> Prop :=
| ne_ret : forall a, no_eof (Ret a)
| ne_throw : forall e, e <> EOFError -> no_eof (Throw e)
| ne_do : forall c k, c <> CInput -> (forall r, r <> RErr EOFError -> no_eof (k r)) -> no_eof (Do c k).
Lemma exec_no_eof c w : c <> CInput -> fst (exec c w) <> RErr EOFError.
Proof.
  intros N. destruct c; try congruence; cbn [exec]; repeat (match goal with |- context [match ?x with _ => _ end] => destruct x eqn:? end); try discriminate.
  cbn [fst]. intros H. inversion H; subst.
  match goal with H : mkdirs _ _ = _ |- _ => revert H end. generalize (w_fs w). induction (prefixes p) as [|q l IH]; intros f0; cbn [mkdirs]; [discriminate|].
  destruct (fs_get q f0) as [[|t]|]; [apply IH|discriminate|apply IH].
Qed.
Lemma no_eof_run {A} (m : io A) w : no_eof m -> w_in (snd (run m w)) = w_in w /\ fst (run m w) <> Err EOFError.
Proof.
  intros H; revert w; induction H as [a|e N|c k N H IH]; intros w; cbn [run].
  - split; [reflexivity|discriminate].
  - split; [reflexivity|cbn [fst]; congruence].
  - pose proof (exec_no_eof c w N) as F. pose proof (exec_keeps_in c w N) as K. destruct (exec c w) as [r w1]. cbn [fst snd] in *. destruct (IH r F w1) as [A1 A2]. split; congruence.
Qed.
Lemma ne_bind {A B} (m : io A) (f : A -> io B) : no_eof m -> (forall a, no_eof (f a)) -> no_eof (io_bind m f).
Proof. induction 1; intros F; cbn [io_bind]; [apply F|constructor; assumption|constructor; auto]. Qed.
Lemma ne_catch {A} (m : io A) h : no_eof m -> (forall e m', h e = Some m' -> no_eof m') -> no_eof (io_catch m h).
Proof. induction 1; intros F; cbn [io_catch]; [constructor| |constructor; auto]. destruct (h e) eqn:E; [eapply F; exact E|constructor; assumption]. Qed.
Lemma ne_unit c : c <> CInput -> no_eof (do_unit c).
Proof. intros N. constructor; [exact N|]. intros r Hr. destruct r; constructor; congruence. Qed.
Lemma ne_bool c : c <> CInput -> no_eof (do_bool c).
Proof. intros N. constructor; [exact N|]. intros r Hr. destruct r; constructor; congruence. Qed.
Lemma ne_names c : c <> CInput -> no_eof (do_names c).
Proof. intros N. constructor; [exact N|]. intros r Hr. destruct r; constructor; congruence. Qed.
Lemma ne_create_file dir n f t : no_eof (create_file dir n f t).
Proof.
  unfold create_file, mkdir. apply ne_bind; [destruct (has_nul _); [constructor; discriminate|apply ne_unit; discriminate]|]. intros _.
  apply ne_bind; [apply ne_bool; discriminate|]. intros []; [constructor; discriminate|].
  repeat (apply ne_bind; [apply ne_unit; discriminate|intros]). constructor.
Qed.
Lemma ne_new n dir : no_eof (get_new_gdbms_file_paths n dir).
Proof.
  unfold get_new_gdbms_file_paths. apply ne_catch.
  - repeat (apply ne_bind; [apply ne_create_file|intros]). apply ne_bind; [apply ne_unit; discriminate|]. intros. constructor.
  - intros e m' H. destruct (is_value_error e) eqn:E; [|discriminate]. injection H as <-. apply (ne_bind (do_unit _)); [apply ne_unit; discriminate|].
    intros. constructor. intros ->. discriminate.
Qed.
Lemma ne_display dir : no_eof (get_and_display_available_dbms dir).
Proof.
  assert (P : forall l, no_eof (print_all l)) by (induction l as [|t l IH]; cbn [print_all]; [constructor|apply ne_bind; [apply ne_unit; discriminate|intros; exact IH]]).
  unfold get_and_display_available_dbms. apply ne_bind.
  - unfold list_existing_dbms. apply ne_bind; [apply ne_names; discriminate|]. intros names. apply ne_bind; [|intros; constructor].
    induction names as [|x l IH]; cbn [filter_io]; [constructor|]. apply ne_bind.
    + apply ne_bind; [apply ne_bool; discriminate|intros; constructor].
    + intros b. apply ne_bind; [exact IH|intros; constructor].
  - intros [|x l]; [constructor|]. apply ne_bind; [apply ne_unit; discriminate|]. intros _. apply ne_bind; [apply P|]. intros _. apply ne_bind; [apply ne_unit; discriminate|intros; constructor].
Qed.

(** ** prompts and answers *)
(** [ps] tells which prompts a program shows *)
Record dialogue {A} (ps : list pystr -> Prop) (w : world) (x : list event * res A * world) : Prop := {
  dl_prompts : ps (prompts (events x));
  dl_typed : w_in w = typed (events x) ++ w_in (snd x);
  dl_end : snd (fst x) = Err EOFError -> exists es p, events x = es ++ [Asked p None] }.
Definition nones (l : list pystr) : Prop := l = [].
Definition several (p : pystr) (l : list pystr) : Prop := exists n, l = repeat p n.
Definition after (P Q : list pystr -> Prop) (l : list pystr) : Prop := exists a b, l = a ++ b /\ P a /\ Q b.
Definition one (p : pystr) (l : list pystr) : Prop := l = [p].

Lemma dl_weaken {A} (P Q : list pystr -> Prop) w (x : list event * res A * world) : (forall l, P l -> Q l) -> dialogue P w x -> dialogue Q w x.
Proof. intros H [A1 A2 A3]. constructor; auto. Qed.
Lemma dl_bind {A B} (P Q R : list pystr -> Prop) (m : term A) (f : A -> term B) w :
  (forall a b, P a -> Q b -> R (a ++ b)) -> (forall a, P a -> R a) ->
  dialogue P w (trun m w) -> (forall es a w1, trun m w = (es, Ok a, w1) -> dialogue Q w1 (trun (f a) w1)) -> dialogue R w (trun (tbind m f) w).
Proof.
  intros C1 C2 D F. rewrite trun_bind. destruct (trun m w) as [[es [a|e]] w1].
  - specialize (F es a w1 eq_refl). destruct D as [A1 A2 A3], F as [B1 B2 B3]. unfold events in *. cbn [fst snd] in *. constructor; unfold events; cbn [fst snd].
    + rewrite prompts_app. apply C1; assumption.
    + rewrite A2, B2, typed_app, app_assoc. reflexivity.
    + intros E. destruct (B3 E) as (es2 & p & ->). exists (es ++ es2), p. apply app_assoc.
  - destruct D as [A1 A2 A3]. unfold events in *. cbn [fst snd] in *. constructor; unfold events; cbn [fst snd]; auto. intros E. apply A3. congruence.
Qed.
Lemma dl_ret {A} (a : A) w : dialogue nones w (trun (TRet a) w).
Proof. constructor; [reflexivity|reflexivity|discriminate]. Qed.
Lemma dl_plainly {A} (m : io A) w : no_eof m -> dialogue nones w (trun (plainly m) w).
Proof.
  intros N. destruct (no_eof_run m w N) as [K E]. destruct (trun_plainly m w) as (ts & -> & _). constructor; unfold events; cbn [fst snd].
  - apply prompts_lines.
  - rewrite typed_lines. symmetry. exact K.
  - intros H. contradiction.
Qed.
Lemma dl_line t w : dialogue nones w (trun (line t) w).
Proof. apply dl_plainly, ne_unit. discriminate. Qed.
Lemma dl_ask p w : dialogue (one p) w (trun (ask p) w).
Proof.
  rewrite trun_ask. destruct (w_in w) as [|s r] eqn:E; constructor; unfold events; cbn [fst snd typed flat_map app rest w_in]; try reflexivity; try congruence.
  intros _. exists [], p. reflexivity.
Qed.
Lemma dl_fuel {A} (P : list pystr -> Prop) w : P [] -> dialogue P w (trun (@TThrow A OutOfFuel) w).
Proof. intros H. constructor; [exact H|reflexivity|discriminate]. Qed.

Lemma repeat_cons {A} (a : A) n : a :: repeat a n = repeat a (S n).
Proof. reflexivity. Qed.
Lemma create_dialogue f dir : forall w, dialogue (several ask_name) w (trun (create_new_dbms_t f dir) w).
Proof.
  induction f as [|f IH]; intros w; [apply dl_fuel; exists 0; reflexivity|]. cbn [create_new_dbms_t].
  eapply (dl_bind (one ask_name) (several ask_name)); [intros a b -> (n & ->); exists (S n); reflexivity|intros a ->; exists 1; reflexivity|apply dl_ask|]. intros _ name w1 _.
  eapply (dl_bind nones (several ask_name)); [intros a b -> H; exact H|intros a ->; exists 0; reflexivity| |].
  - apply dl_plainly. apply ne_catch; [apply ne_bind; [apply ne_new|intros; constructor]|]. intros e m' H. destruct (is_value_error e); [|discriminate]. injection H as <-.
    apply (ne_bind (do_unit _)); [apply ne_unit; discriminate|]. intros. constructor.
  - intros _ [g|] w2 _; [|apply IH]. eapply dl_weaken; [|apply dl_ret]. intros l ->. exists 0. reflexivity.
Qed.
Lemma existing_dialogue f folder dir : forall w, dialogue (after (several ask_letter) (several ask_name)) w (trun (get_existing_gdbms_t f folder dir) w).
Proof.
  assert (NIL : after (several ask_letter) (several ask_name) []) by (exists [], []; repeat split; exists 0; reflexivity).
  assert (NX : forall l, nones l -> after (several ask_letter) (several ask_name) l) by (intros l ->; exact NIL).
  induction f as [|f IH]; intros w; [apply dl_fuel; exact NIL|]. cbn [get_existing_gdbms_t].
  eapply (dl_bind nones (after (several ask_letter) (several ask_name))); [intros a b -> H; exact H|exact NX|apply dl_plainly, ne_display|]. intros _ choices w1 _.
  assert (NO : dialogue (after (several ask_letter) (several ask_name)) w1 (trun (let> _ := line (py "There are no databases, please create a new database.") in create_new_dbms_t f dir) w1)).
  { eapply (dl_bind nones (several ask_name)); [|exact NX|apply dl_line|intros; apply create_dialogue]. intros a b -> H. exists [], b. repeat split; [exists 0; reflexivity|exact H]. }
  destruct choices as [[|kv d]|]; [exact NO| |exact NO]. clear NO.
  eapply (dl_bind (one ask_letter) (after (several ask_letter) (several ask_name))); [| |apply dl_ask|].
  { intros a b -> (l1 & l2 & -> & (n & ->) & H). exists (ask_letter :: repeat ask_letter n), l2. repeat split; [exists (S n); reflexivity|exact H]. }
  { intros a ->. exists [ask_letter], []. repeat split; [exists 1; reflexivity|exists 0; reflexivity]. }
  intros _ sel w2 _. destruct (d_get sel (kv :: d)) as [n|].
  - eapply (dl_bind nones (after (several ask_letter) (several ask_name))); [intros a b -> H; exact H|exact NX| |].
    + apply dl_plainly. apply ne_catch.
      * assert (NE : forall f, no_eof (existing_file f)) by (intros p; apply ne_bind; [apply ne_bool; discriminate|]; intros []; constructor; discriminate).
        repeat (apply ne_bind; [apply NE|intros]). constructor.
      * intros e m' H. destruct e; try discriminate. injection H as <-. apply (ne_bind (do_unit _)); [apply ne_unit; discriminate|]. intros. constructor.
    + intros _ [g|] w3 _; [|apply IH]. eapply dl_weaken; [exact NX|apply dl_ret].
  - eapply (dl_bind nones (after (several ask_letter) (several ask_name))); [intros a b -> H; exact H|exact NX|apply dl_line|]. intros _ _ w3 _. apply IH.
Qed.
Lemma select_dialogue f folder w : dialogue (after (one ask_existing) (after (several ask_letter) (several ask_name))) w (trun (select_gdbms_t f folder) w).
Proof.
  unfold select_gdbms_t. eapply (dl_bind (one ask_existing) (after (several ask_letter) (several ask_name))); [| |apply dl_ask|].
  - intros a b A B. exists a, b. auto.
  - intros a A. exists a, []. rewrite app_nil_r. repeat split; auto. exists [], []. repeat split; exists 0; reflexivity.
  - intros _ c w1 _. destruct (_ || _); [apply existing_dialogue|]. eapply dl_weaken; [|apply create_dialogue]. intros l H. exists [], l. repeat split; auto. exists 0. reflexivity.
Qed.

Lemma run_catch_new s dir w : run (io_catch (let! g := get_new_gdbms_file_paths s dir in Ret (Some g))
    (fun e => if is_value_error e then Some (let! _ := do_unit (CPrint (taken_msg s)) in Ret None) else None)) w =
  match run (get_new_gdbms_file_paths s dir) w with
  | (Ok g, w1) => (Ok (Some g), w1)
  | (Err e, w1) => if is_value_error e then (Ok None, says (taken_msg s) w1) else (Err e, w1)
  end.
Proof. rewrite run_catch, run_bind. destruct (run (get_new_gdbms_file_paths s dir) w) as [[g|e] w1]; [reflexivity|]. destruct (is_value_error e); reflexivity. Qed.
Lemma run_out_new s dir w : exists ts, w_out (snd (run (get_new_gdbms_file_paths s dir) w)) = w_out w ++ ts.
Proof. destruct (trun_plainly (get_new_gdbms_file_paths s dir) w) as (ts & _ & E). exists ts. exact E. Qed.
Definition check_files (dir : path) (n : pystr) (w : world) : bool :=
  fs_is_file (db_file dir n) (w_fs w) && fs_is_file (idx_file dir n) (w_fs w) && fs_is_file (wn_file dir n) (w_fs w).
Lemma run_catch_existing dir n w : run (io_catch
    (let! a := existing_file (db_file dir n) in let! b := existing_file (idx_file dir n) in let! c := existing_file (wn_file dir n) in
     Ret (Some {| database_fp := a; indexes_fp := b; wiggle_number_fp := c |}))
    (fun e => match e with FileNotFoundError => Some (let! _ := do_unit (CPrint (py "Database files could not be found ")) in Ret None) | _ => None end)) w =
  if check_files dir n w then (Ok (Some (files_named dir n)), w) else (Ok None, says (py "Database files could not be found ") w).
Proof.
  rewrite run_catch, run_bind, existing_run. unfold check_files. destruct (fs_is_file (db_file dir n) (w_fs w)); [|reflexivity].
  rewrite run_bind, existing_run. destruct (fs_is_file (idx_file dir n) (w_fs w)); [|reflexivity].
  rewrite run_bind, existing_run. destruct (fs_is_file (wn_file dir n) (w_fs w)); reflexivity.
Qed.
Lemma is_file_iff p w : fs_is_file p (w_fs w) = true <-> exists t, entry_at p w = Some (EFile t).
Proof. unfold fs_is_file, entry_at. destruct (fs_get p (w_fs w)) as [[|t]|]; split; try discriminate; try (intros (t' & H); discriminate); intros _; eauto. Qed.
Lemma check_true dir n w : check_files dir n w = true -> forall p, In p (files_of (files_named dir n)) -> exists t, entry_at p w = Some (EFile t).
Proof. unfold check_files. rewrite !andb_true_iff, !is_file_iff. intros [[A B] C] p. cbn. intros [<-|[<-|[<-|[]]]]; assumption. Qed.
Lemma check_false dir n w : check_files dir n w = false -> exists p, In p (files_of (files_named dir n)) /\ forall t, entry_at p w <> Some (EFile t).
Proof.
  assert (F : forall p, fs_is_file p (w_fs w) = false -> forall t, entry_at p w <> Some (EFile t)).
  { intros p H t X. assert (Y : fs_is_file p (w_fs w) = true) by (apply is_file_iff; eauto). congruence. }
  unfold check_files. rewrite !andb_false_iff. intros [[H|H]|H]; (eexists; split; [|apply F; exact H]); cbn; auto.
Qed.

(** ** the choice of a graph, line by line *)
Lemma chooses_name dir : forall n w, List.length (w_in w) < n ->
  Naming ask_name dir w (events (trun (create_new_dbms_t n dir) w)) (snd (fst (trun (create_new_dbms_t n dir) w))) (snd (trun (create_new_dbms_t n dir) w)).
Proof.
  induction n as [|f IH]; intros w L; [lia|]. cbn [create_new_dbms_t]. rewrite trun_bind, trun_ask. destruct (w_in w) as [|s r] eqn:E; [apply nm_end; exact E|]. cbn [List.length] in L.
  rewrite trun_bind. destruct (no_eof_run _ (rest r w) (ne_new s dir)) as [K _].
  match goal with |- context [trun (plainly ?m) ?v] => destruct (trun_plainly m v) as (ts & -> & TS); pose proof (run_catch_new s dir v) as RM end. rewrite RM in TS |- *. clear RM.
  destruct (run (get_new_gdbms_file_paths s dir) (rest r w)) as [[g|e] w1] eqn:R; cbn [fst snd] in *.
  - cbn [trun fst snd]. unfold events; cbn [fst snd app]. rewrite app_nil_r. eapply nm_made; [exact E|exact R|exact TS].
  - destruct (run_out_new s dir (rest r w)) as (ts1 & O1). rewrite R in O1. cbn [snd] in O1. destruct (is_value_error e) eqn:V; cbn [fst snd] in TS |- *.
    + assert (X : ts = ts1 ++ [taken_msg s]). { apply (app_inv_head (w_out (rest r w))). rewrite <- TS. cbn [says w_out]. rewrite O1, app_assoc. reflexivity. }
      subst ts. unfold events; cbn [fst snd app]. rewrite map_app, <- app_assoc. cbn [map app].
      eapply nm_taken; [exact E|exact R|exact V|exact O1|]. apply IH. cbn [says w_in]. rewrite K. cbn [rest w_in]. lia.
    + unfold events; cbn [fst snd app]. eapply nm_fails; [exact E|exact R|exact V|exact TS].
Qed.
Lemma picks_letter dir : forall n w, S (List.length (w_in w)) < n ->
  Picking ask_letter ask_name dir w (events (trun (get_existing_gdbms_t n dir dir) w)) (snd (fst (trun (get_existing_gdbms_t n dir dir) w))) (snd (trun (get_existing_gdbms_t n dir dir) w)).
Proof.
  induction n as [|f IH]; intros w L; [lia|]. cbn [get_existing_gdbms_t]. rewrite trun_bind. destruct (no_eof_run _ w (ne_display dir)) as [K _].
  destruct (trun_plainly (get_and_display_available_dbms dir) w) as (ts & -> & TS). destruct (run (get_and_display_available_dbms dir) w) as [[c|e] w1] eqn:R; cbn [fst snd] in *.
  2: { unfold events; cbn [fst snd]. eapply pk_no_folder; [exact R|exact TS]. }
  assert (NO : c = None \/ c = Some [] ->
    let x := trun (let> _ := line (py "There are no databases, please create a new database.") in create_new_dbms_t f dir) w1 in
    Picking ask_letter ask_name dir w (map Wrote ts ++ events x) (snd (fst x)) (snd x)).
  { intros HC. cbv zeta. rewrite trun_bind, trun_line. unfold events; cbn [fst snd app]. eapply pk_none; [exact R|exact HC|exact TS|]. apply chooses_name. cbn [says w_in]. rewrite K. lia. }
  destruct c as [[|kv d]|]; [apply NO; auto| |apply NO; auto]. clear NO. set (dd := kv :: d) in *. assert (ND : dd <> []) by discriminate.
  rewrite trun_bind, trun_ask. destruct (w_in w1) as [|l r] eqn:E.
  { unfold events; cbn [fst snd]. eapply pk_end; [exact R|exact ND|exact TS|exact E]. }
  rewrite <- K in L. cbn [List.length] in L. destruct (d_get l dd) as [n|] eqn:G.
  - rewrite trun_bind. match goal with |- context [trun (plainly ?m) ?v] => destruct (trun_plainly m v) as (ts2 & -> & TS2); pose proof (run_catch_existing dir n v) as RM end. rewrite RM in TS2 |- *. clear RM.
    destruct (check_files dir n (rest r w1)) eqn:CF; cbn [fst snd says w_out] in TS2 |- *.
    + assert (ts2 = []). { apply (app_inv_head (w_out (rest r w1))). rewrite app_nil_r. symmetry. exact TS2. }
      subst ts2. unfold events; cbn [fst snd trun map app]. eapply pk_chosen; [exact R|exact ND|exact TS|exact E|exact G|]. exact (check_true _ _ _ CF).
    + apply app_inv_head in TS2. subst ts2. unfold events; cbn [fst snd map app]. destruct (check_false _ _ _ CF) as (p & I & NF).
      eapply pk_missing; [exact R|exact ND|exact TS|exact E|exact G|exact I|exact NF|]. apply IH. cbn [says rest w_in]. lia.
  - rewrite trun_bind, trun_line. unfold events; cbn [fst snd app]. eapply pk_unknown; [exact R|exact ND|exact TS|exact E| |].
    + intros I. revert G I. clear. induction dd as [|[k v] dd IH]; cbn [d_get map fst In]; [tauto|]. destruct (str_eqb l k) eqn:X; [discriminate|]. apply str_eqb_neq in X. intros G [H|H]; [congruence|exact (IH G H)].
    + apply IH. cbn [says rest w_in]. lia.
Qed.
Lemma chooses dir n w : List.length (w_in w) < n ->
  Choosing ask_existing ask_letter ask_name dir w (events (trun (select_gdbms_t n dir) w)) (snd (fst (trun (select_gdbms_t n dir) w))) (snd (trun (select_gdbms_t n dir) w)).
Proof.
  intros L. unfold select_gdbms_t. rewrite trun_bind, trun_ask. destruct (w_in w) as [|c r] eqn:E; [apply cs_end; exact E|]. cbn [List.length] in L. unfold events; cbn [fst snd app].
  destruct (str_eqb c (py "y") || str_eqb c (py "yes")) eqn:Y.
  - eapply cs_yes; [exact E| |apply picks_letter; cbn [rest w_in]; lia]. apply orb_true_iff in Y as [Y|Y]; apply str_eqb_eq in Y; cbn [In]; auto.
  - eapply cs_no; [exact E| |apply chooses_name; cbn [rest w_in]; lia]. apply orb_false_iff in Y as [Y1 Y2]. apply str_eqb_neq in Y1, Y2. cbn [In]. intros [H|[H|[]]]; congruence.
Qed.

(** ** the loop *)
Section Loop.
  Context {rt : PyRt} (D : rt_data rt).
  Context (u : N -> bool) (pt : exn -> pystr).
  Lemma says_out t w : w_out (says t w) = w_out w ++ [t].
  Proof. reflexivity. Qed.
  Theorem loop_chats g : forall n w, List.length (w_in w) < n ->
    Chat ask_query (exception_text u pt) g w (events (trun (shell_loop_t u pt n g) w)) (snd (fst (trun (shell_loop_t u pt n g) w))) (snd (trun (shell_loop_t u pt n g) w)).
  Proof.
    induction n as [|n IH]; intros w L; [lia|]. cbn [shell_loop_t]. rewrite trun_bind, trun_ask. destruct (w_in w) as [|l r] eqn:E.
    - unfold events; cbn [fst snd]. apply ch_end. exact E.
    - cbn [List.length] in L. rewrite trun_bind, trun_line. change (l ++ py " " ++ [10%N]) with (echo l). destruct (str_eqb l (py "q")) eqn:Q.
      { apply str_eqb_eq in Q. subst l. rewrite trun_line. unfold events. cbn [fst snd app]. apply ch_quit. exact E. }
      apply str_eqb_neq in Q. destruct (contains (py "help") (str_lower l)) eqn:H.
      + apply mentions_dec in H. rewrite trun_bind, trun_line. unfold events. cbn [fst snd app]. apply ch_help with r; [exact E|exact Q|exact H|]. apply IH. cbn [says rest w_in]. lia.
      + assert (NH : ~ mentions_help l) by (rewrite <- mentions_dec, H; discriminate). rewrite trun_bind.
        pose proof (query_keeps_input l g (says (echo l) (rest r w))) as K. cbn [says rest w_in] in K.
        destruct (run_query_same D l g (says (echo l) (rest r w))) as (x & w1 & E1 & E2). rewrite E2 in K. cbn [snd] in K.
        destruct (trun_plainly (query_m l g) (says (echo l) (rest r w))) as (ts & -> & TS). rewrite E1 in TS |- *. cbn [fst snd] in TS |- *. destruct x as [b|e m].
        * unfold events; cbn [fst snd app]. eapply ch_succeeds; [exact E|exact Q|exact NH|exact E1|exact TS|]. apply IH. rewrite K. lia.
        * rewrite trun_bind, trun_line. unfold events; cbn [fst snd app]. eapply ch_fails; [exact E|exact Q|exact NH|exact E1|exact TS|]. apply IH. cbn [says w_in]. rewrite K. lia.
  Qed.
  Lemma chat_dialogue p answer g w es r w' : Chat p answer g w es r w' -> dialogue (several p) w (es, r, w') /\ r <> Err OutOfFuel.
  Proof.
    induction 1 as [w E|w r E|w l r es res w' E N H CH IH|w l r b ts w1 es res w' E N H RQ NL CH IH|w l r e m ts w1 es res w' E N H RQ NL CH IH].
    - split; [|discriminate]. constructor; unfold events; cbn [fst snd]; [exists 1; reflexivity|reflexivity|]. intros _. exists [], p. reflexivity.
    - split; [|discriminate]. constructor; unfold events; cbn [fst snd]; [exists 1; reflexivity|exact E|discriminate].
    - destruct IH as [[(n & A1) A2 A3] NF]. split; [|exact NF]. unfold events in *. cbn [fst snd says rest w_in] in *. constructor; unfold events; cbn [fst snd].
      + exists (S n). change (p :: prompts es = p :: repeat p n). congruence.
      + rewrite E. change (l :: r = l :: (typed es ++ w_in w')). congruence.
      + intros X. destruct (A3 X) as (es' & p' & ->). eexists (_ :: _ :: _ :: es'), p'. reflexivity.
    - destruct IH as [[(n & A1) A2 A3] NF]. split; [|exact NF]. unfold events in *. cbn [fst snd] in *.
      assert (K : w_in w1 = r). { destruct (run_query_same D l g (says (echo l) (rest r w))) as (x & w2 & E1 & E2). rewrite RQ in E1. injection E1 as <- <-. pose proof (query_keeps_input l g (says (echo l) (rest r w))) as K. rewrite E2 in K. exact K. }
      constructor; unfold events; cbn [fst snd].
      + exists (S n). change (p :: prompts (map Wrote ts ++ es) = p :: repeat p n). rewrite prompts_app, prompts_lines. cbn [app]. congruence.
      + rewrite E. change (l :: r = l :: (typed (map Wrote ts ++ es) ++ w_in w')). rewrite typed_app, typed_lines. cbn [app]. congruence.
      + intros X. destruct (A3 X) as (es' & p' & ->). eexists (_ :: _ :: map Wrote ts ++ es'), p'. cbn [app]. rewrite app_assoc. reflexivity.
    - destruct IH as [[(n & A1) A2 A3] NF]. split; [|exact NF]. unfold events in *. cbn [fst snd says w_in] in *.
      assert (K : w_in w1 = r). { destruct (run_query_same D l g (says (echo l) (rest r w))) as (x & w2 & E1 & E2). rewrite RQ in E1. injection E1 as <- <-. pose proof (query_keeps_input l g (says (echo l) (rest r w))) as K. rewrite E2 in K. exact K. }
      constructor; unfold events; cbn [fst snd].
      + exists (S n). change (p :: prompts (map Wrote ts ++ Wrote (answer e m) :: es) = p :: repeat p n). rewrite prompts_app, prompts_lines. cbn [app]. change (p :: prompts es = p :: repeat p n). congruence.
      + rewrite E. change (l :: r = l :: (typed (map Wrote ts ++ Wrote (answer e m) :: es) ++ w_in w')). rewrite typed_app, typed_lines. cbn [app]. change (l :: r = l :: (typed es ++ w_in w')). congruence.
      + intros X. destruct (A3 X) as (es' & p' & ->). eexists (_ :: _ :: map Wrote ts ++ Wrote (answer e m) :: es'), p'. cbn [app]. rewrite <- app_assoc. reflexivity.
  Qed.

  (** ** the whole program *)
  Lemma start_run fuel folder w : trun (start_wiggle_shell_t u pt fuel folder) w =
    match trun (select_gdbms_t fuel folder) (greet w) with
    | (es, Ok g, w1) => let '(es2, r, w2) := trun (shell_loop_t u pt fuel g) (says (py "Using " ++ gdbms_text u g ++ [10%N]) w1) in
        (map Wrote banner ++ es ++ Wrote (py "Using " ++ gdbms_text u g ++ [10%N]) :: es2, r, w2)
    | (es, Err e, w1) => (map Wrote banner ++ es, Err e, w1)
    end.
  Proof.
    unfold start_wiggle_shell_t. do 3 (rewrite trun_bind, trun_line). rewrite trun_bind.
    replace (says (py "**********************" ++ [10%N]) (says (py "Welcome to WiggleGraph") (says (py "**********************") w))) with (greet w)
      by (unfold greet, says, banner; cbn [w_fs w_in w_out]; rewrite <- !app_assoc; reflexivity).
    destruct (trun (select_gdbms_t fuel folder) (greet w)) as [[es [g|e]] w1]; [|reflexivity].
    rewrite trun_bind, trun_line. destruct (trun (shell_loop_t u pt fuel g) _) as [[es2 r] w2]. reflexivity.
  Qed.
  Lemma after_all a b l : after (one ask_existing) (after (several ask_letter) (several ask_name)) a -> several ask_query b -> l = a ++ b ->
    exists i j k, l = ask_existing :: repeat ask_letter i ++ repeat ask_name j ++ repeat ask_query k.
  Proof.
    intros (a1 & a2 & -> & -> & (a3 & a4 & -> & (i & ->) & (j & ->))) (k & ->) ->. exists i, j, k. cbn [app]. rewrite <- app_assoc. reflexivity.
  Qed.
  Theorem terminal fuel folder w es r w' : List.length (w_in w) < fuel -> trun (start_wiggle_shell_t u pt fuel folder) w = (es, r, w') ->
    w_in w = typed es ++ w_in w' /\ w_out w' = w_out w ++ wrote es /\
    (exists i j k, prompts es = ask_existing :: repeat ask_letter i ++ repeat ask_name j ++ repeat ask_query k) /\
    (r = Err EOFError <-> exists es1 p, es = es1 ++ [Asked p None]) /\
    (forall es1 p es2, es = es1 ++ Asked p None :: es2 -> es2 = []) /\
    r <> Err OutOfFuel.
  Proof.
    intros L R. pose proof (trun_out (start_wiggle_shell_t u pt fuel folder) w) as O. rewrite R in O. unfold events in O. cbn [fst snd] in O.
    assert (U : forall es1 p es2, es = es1 ++ Asked p None :: es2 -> es2 = [] /\ r = Err EOFError).
    { intros es1 p es2 E. pose proof (trun_unanswered (start_wiggle_shell_t u pt fuel folder) w es1 (Asked p None) es2) as U. rewrite R in U. unfold events in U. cbn [fst snd] in U. destruct (U E I) as (A & B & _). auto. }
    assert (G : dialogue (fun l => exists i j k, l = ask_existing :: repeat ask_letter i ++ repeat ask_name j ++ repeat ask_query k) w (es, r, w') /\ r <> Err OutOfFuel).
    { clear U O. rewrite start_run in R. pose proof (select_dialogue fuel folder (greet w)) as S. pose proof (select_ends fuel folder (greet w)) as F. pose proof (select_quiet fuel folder (greet w)) as SQ.
      destruct (trun (select_gdbms_t fuel folder) (greet w)) as [[es1 [g|e]] w1]; unfold quiet in SQ; cbn [fst snd] in SQ; rewrite <- SQ in F; cbn [fst greet w_in] in F.
      - destruct S as [S1 S2 S3]. unfold events in S1, S2, S3. cbn [fst snd greet w_in] in S1, S2, S3.
        assert (L2 : List.length (w_in (says (py "Using " ++ gdbms_text u g ++ [10%N]) w1)) < fuel) by (cbn [says w_in]; rewrite S2, app_length in L; lia).
        pose proof (loop_chats g fuel _ L2) as CH. destruct (trun (shell_loop_t u pt fuel g) _) as [[es2 r2] w2]. unfold events in CH. cbn [fst snd] in CH. apply pair_equal_spec in R as [R <-]. apply pair_equal_spec in R as [<- <-].
        destruct (chat_dialogue _ _ _ _ _ _ _ CH) as [[C1 C2 C3] NF]. split; [|exact NF]. unfold events in C1, C2, C3. cbn [fst snd says w_in] in C1, C2, C3.
        constructor; unfold events; cbn [fst snd].
        + cbv beta. match goal with |- context [prompts ?x] => apply (after_all (prompts es1) (prompts es2) (prompts x)) end; [exact S1|exact C1|]. rewrite !prompts_app, prompts_lines. reflexivity.
        + rewrite !typed_app, typed_lines. change (typed (Wrote (py "Using " ++ gdbms_text u g ++ [10%N]) :: es2)) with (typed es2). rewrite S2, C2. cbn [app]. apply app_assoc.
        + intros X. destruct (C3 X) as (es' & p & ->). exists (map Wrote banner ++ es1 ++ Wrote (py "Using " ++ gdbms_text u g ++ [10%N]) :: es'), p. rewrite <- !app_assoc. reflexivity.
      - apply pair_equal_spec in R as [R <-]. apply pair_equal_spec in R as [<- <-]. destruct S as [S1 S2 S3]. unfold events in S1, S2, S3. cbn [fst snd greet w_in] in S1, S2, S3. split; [|intros X; apply F; [exact L|congruence]].
        constructor; unfold events; cbn [fst snd].
        + cbv beta. match goal with |- context [prompts ?x] => apply (after_all (prompts es1) [] (prompts x)) end; [exact S1|exists 0; reflexivity|]. rewrite prompts_app, prompts_lines, app_nil_r. reflexivity.
        + rewrite typed_app, typed_lines. exact S2.
        + intros X. destruct S3 as (es' & p & ->); [congruence|]. exists (map Wrote banner ++ es'), p. apply app_assoc. }
    destruct G as [[G1 G2 G3] NF]. unfold events in G1, G2, G3. cbn [fst snd] in G1, G2, G3.
    repeat split; auto.
    - intros (es1 & p & E). exact (proj2 (U _ _ _ E)).
    - intros es1 p es2 E. exact (proj1 (U _ _ _ E)).
  Qed.

  Theorem visits fuel folder w es r w' : List.length (w_in w) < fuel -> trun (start_wiggle_shell_t u pt fuel folder) w = (es, r, w') ->
    Visit ask_existing ask_letter ask_name ask_query (fun g => py "Using " ++ gdbms_text u g ++ [10%N]) (exception_text u pt) folder w es r w'.
  Proof.
    intros L R. rewrite start_run in R. pose proof (select_dialogue fuel folder (greet w)) as [_ S2 _]. pose proof (chooses folder fuel (greet w) L) as C.
    destruct (trun (select_gdbms_t fuel folder) (greet w)) as [[es1 [g|e]] w1]; unfold events in S2, C; cbn [fst snd greet w_in] in S2, C.
    - assert (L2 : List.length (w_in (says (py "Using " ++ gdbms_text u g ++ [10%N]) w1)) < fuel) by (cbn [says w_in]; rewrite S2, app_length in L; lia).
      pose proof (loop_chats g fuel _ L2) as CH. destruct (trun (shell_loop_t u pt fuel g) _) as [[es2 r2] w2]. unfold events in CH. cbn [fst snd] in CH.
      apply pair_equal_spec in R as [R <-]. apply pair_equal_spec in R as [<- <-]. exact (vs_graph _ _ _ _ _ _ _ _ _ _ _ _ _ _ C CH).
    - apply pair_equal_spec in R as [R <-]. apply pair_equal_spec in R as [<- <-]. exact (vs_no_graph _ _ _ _ _ _ _ _ _ _ _ C).
  Qed.

  (** ** the same program as that of the other properties *)
  Lemma abridges_refl t : abridges t t.
  Proof. left. reflexivity. Qed.
  Lemma abridges_all l : Forall2 abridges l l.
  Proof. induction l; constructor; auto using abridges_refl. Qed.
  Lemma abr_says a b w0 w : abridges a b -> abridged w0 w -> abridged (says a w0) (says b w).
  Proof. intros X (A & B & C). repeat split; cbn [says w_fs w_in w_out]; auto. apply Forall2_app; [exact C|]. constructor; [exact X|constructor]. Qed.
  Lemma abr_exec c w w2 : abridged w w2 -> fst (exec c w2) = fst (exec c w) /\ abridged (snd (exec c w)) (snd (exec c w2)).
  Proof.
    intros (A & B & C). destruct c; cbn [exec]; rewrite <- ?A, <- ?B;
      repeat match goal with |- context [match ?x with _ => _ end] => destruct x eqn:? end; cbn [fst snd]; split; try reflexivity; repeat split; cbn [w_fs w_in w_out with_fs]; auto; try congruence.
    apply Forall2_app; [exact C|]. constructor; [left; reflexivity|constructor].
  Qed.
  Lemma abr_run {A} (x : io A) : forall w w2, abridged w w2 -> fst (run x w2) = fst (run x w) /\ abridged (snd (run x w)) (snd (run x w2)).
  Proof.
    induction x as [a|e|c k IH]; intros w w2 L; cbn [run]; [auto|auto|]. destruct (abr_exec c w w2 L) as [E1 E2].
    destruct (exec c w) as [r1 w1'], (exec c w2) as [r2 w2']. cbn [fst snd] in *. subst r2. apply IH. exact E2.
  Qed.
  Lemma loop_same g : forall n w0 w, abridged w0 w ->
    fst (run (shell_loop n g) w0) = fst (quiet (trun (shell_loop_t u pt n g) w)) /\ abridged (snd (run (shell_loop n g) w0)) (snd (quiet (trun (shell_loop_t u pt n g) w))).
  Proof.
    induction n as [|n IH]; intros w0 w AB; [split; [reflexivity|exact AB]|]. cbn [shell_loop_t shell_loop]. rewrite quiet_bind, run_bind, quiet_ask, !input_run.
    pose proof AB as (A & B & C). rewrite B. destruct (w_in w) as [|l r] eqn:E; [split; [reflexivity|exact AB]|].
    change {| w_fs := w_fs w0; w_in := r; w_out := w_out w0 |} with (rest r w0). change {| w_fs := w_fs w; w_in := r; w_out := w_out w |} with (rest r w).
    assert (AB1 : abridged (rest r w0) (rest r w)) by (repeat split; assumption).
    rewrite quiet_bind, run_bind, quiet_line. cbn [do_unit run exec]. change {| w_fs := w_fs ?x; w_in := w_in ?x; w_out := w_out ?x ++ [?t] |} with (says t x).
    assert (AB2 : abridged (says (l ++ py " " ++ [10%N]) (rest r w0)) (says (l ++ py " " ++ [10%N]) (rest r w))) by (apply abr_says; [apply abridges_refl|exact AB1]).
    change (says (l ++ py " " ++ [10%N]) (rest r w0)) with (says (echo l) (rest r w0)) in *. change (says (l ++ py " " ++ [10%N]) (rest r w)) with (says (echo l) (rest r w)) in *.
    change {| w_fs := w_fs (rest r w0); w_in := w_in (rest r w0); w_out := w_out (rest r w0) ++ [l ++ py " " ++ [10%N]] |} with (says (echo l) (rest r w0)).
    change {| w_fs := w_fs (rest r w); w_in := w_in (rest r w); w_out := w_out (rest r w) ++ [l ++ py " " ++ [10%N]] |} with (says (echo l) (rest r w)).
    destruct (str_eqb l (py "q")).
    { rewrite quiet_line. split; [reflexivity|]. apply (abr_says GOOD_BYE GOOD_BYE); [apply abridges_refl|exact AB2]. }
    destruct (contains (py "help") (str_lower l)).
    - rewrite quiet_bind, run_bind, quiet_line. cbn [do_unit run exec]. apply IH. apply (abr_says HELPFUL HELPFUL); [apply abridges_refl|exact AB2].
    - rewrite quiet_bind, run_bind, run_catch, quiet_plainly. destruct (run_query_same D l g (says (echo l) (rest r w))) as (x & w1 & E1 & E2). rewrite E1.
      destruct (abr_run (query l g) _ _ AB2) as [Y1 Y2]. rewrite E2 in Y1, Y2. cbn [fst snd] in Y1, Y2.
      destruct (run (query l g) (says (echo l) (rest r w0))) as [r0 w3]. cbn [fst snd] in Y1, Y2. subst r0. destruct x as [b|e m]; cbn [erase].
      + apply IH. exact Y2.
      + rewrite quiet_bind, quiet_line. cbn [do_unit io_bind run exec]. apply IH. apply (abr_says (py "error") (exception_text u pt e m)); [right; left; reflexivity|exact Y2].
  Qed.
  Theorem terminal_same fuel folder w es r w' : trun (start_wiggle_shell_t u pt fuel folder) w = (es, r, w') ->
    exists w0, run (start_wiggle_shell fuel folder) w = (r, w0) /\ abridged w0 w'.
  Proof.
    intros R. assert (Q : quiet (trun (start_wiggle_shell_t u pt fuel folder) w) = (r, w')) by (rewrite R; reflexivity). clear R es.
    rewrite start_run in Q. unfold start_wiggle_shell. rewrite run_bind, print_all_run. fold banner. change {| w_fs := w_fs w; w_in := w_in w; w_out := w_out w ++ banner |} with (greet w).
    rewrite run_bind, <- select_quiet. destruct (trun (select_gdbms_t fuel folder) (greet w)) as [[es [g|e]] w1]; unfold quiet at 1; cbn [fst snd].
    - rewrite run_bind. cbn [do_unit run exec]. change {| w_fs := w_fs w1; w_in := w_in w1; w_out := w_out w1 ++ [py "Using "] |} with (says (py "Using ") w1).
      assert (AB : abridged (says (py "Using ") w1) (says (py "Using " ++ gdbms_text u g ++ [10%N]) w1)).
      { apply abr_says; [right; right; split; [reflexivity|eexists; reflexivity]|]. repeat split. apply abridges_all. }
      destruct (loop_same g fuel _ _ AB) as [X1 X2]. destruct (trun (shell_loop_t u pt fuel g) _) as [[es2 r2] w2]. unfold quiet in Q, X1, X2. cbn [fst snd] in Q, X1, X2. injection Q as <- <-.
      destruct (run (shell_loop fuel g) _) as [r0 w0]. cbn [fst snd] in X1, X2. subst r0. exists w0. auto.
    - unfold quiet in Q. cbn [fst snd] in Q. injection Q as <- <-. exists w1. split; [reflexivity|]. repeat split. apply abridges_all.
  Qed.

  (** ** the line that names the files *)
  Lemma slashed_text p : p <> [] -> path_text p = slashed p.
  Proof. intros N. destruct p as [|c p]; [congruence|]. clear N. unfold path_text, slashed. rewrite flat_map_concat_map. reflexivity. Qed.
  Lemma shown_chars p : Forall (Forall (fun c => (32 <= c <= 126)%N /\ c <> 92%N /\ c <> 39%N)) p -> Forall (fun c => (32 <= c <= 126)%N /\ c <> 92%N /\ c <> 39%N) (slashed p).
  Proof. intros F. unfold slashed. induction F as [|c p F1 F IH]; [constructor|]. cbn [map concat]. apply Forall_app. split; [|exact IH]. constructor; [|exact F1]. cbn. lia. Qed.
  Lemma in_quotes_repr p : shown_as_is p -> path_repr u p = in_quotes p.
  Proof.
    intros [N F]. unfold path_repr, in_quotes. rewrite (slashed_text p N). apply shown_chars in F. revert F. generalize (slashed p). intros s F.
    assert (NI : ~ In 39%N s). { intros I. rewrite Forall_forall in F. destruct (F _ I) as (_ & _ & X). congruence. }
    destruct (repr_plain u s) as [R _].
    { split; [eapply Forall_impl; [|exact F]; cbn; intros c (A & B & _); auto|]. intros [I _]. contradiction. }
    rewrite R. assert (E : existsb (N.eqb 39) s = false). { destruct (existsb (N.eqb 39) s) eqn:E; [|reflexivity]. apply existsb_exists in E as (x & I & X). apply N.eqb_eq in X. subst x. contradiction. }
    unfold its_quote. rewrite E. cbn [andb app]. change (py "PosixPath('") with (py "PosixPath(" ++ [39%N]). rewrite <- !app_assoc. reflexivity.
  Qed.
  Lemma using_text g : (forall p, In p (files_of g) -> shown_as_is p) -> py "Using " ++ gdbms_text u g ++ [10%N] = using_line g.
  Proof.
    intros S. unfold gdbms_text, using_line. rewrite !in_quotes_repr by (apply S; cbn; auto). rewrite <- !app_assoc. change (py "Using database_file_path=") with (py "Using " ++ py "database_file_path="). rewrite <- !app_assoc. reflexivity.
  Qed.
  Theorem names_the_files fuel folder w es r w' g w1 : List.length (w_in w) < fuel ->
    trun (start_wiggle_shell_t u pt fuel folder) w = (es, r, w') -> run (select_gdbms fuel folder) (greet w) = (Ok g, w1) -> (forall p, In p (files_of g) -> shown_as_is p) ->
    exists es1 es2, es = map Wrote banner ++ es1 ++ Wrote (using_line g) :: es2 /\ w_out w1 = w_out w ++ banner ++ wrote es1 /\ w_in w = typed es1 ++ w_in w1 /\
      Chat ask_query (exception_text u pt) g (says (using_line g) w1) es2 r w'.
  Proof.
    intros L R SR SH. rewrite start_run in R. pose proof (select_dialogue fuel folder (greet w)) as [_ S2 _]. pose proof (select_quiet fuel folder (greet w)) as SQ. rewrite SR in SQ.
    pose proof (trun_out (select_gdbms_t fuel folder) (greet w)) as O.
    destruct (trun (select_gdbms_t fuel folder) (greet w)) as [[es1 x] w0]. unfold quiet in SQ. cbn [fst snd] in SQ. injection SQ as -> ->. unfold events in S2, O. cbn [fst snd greet w_in w_out] in S2, O.
    rewrite (using_text g SH) in R.
    assert (L2 : List.length (w_in (says (using_line g) w1)) < fuel) by (cbn [says w_in]; rewrite S2, app_length in L; lia).
    pose proof (loop_chats g fuel _ L2) as CH. destruct (trun (shell_loop_t u pt fuel g) _) as [[es2 r2] w2]. unfold events in CH. cbn [fst snd] in CH. apply pair_equal_spec in R as [R <-]. apply pair_equal_spec in R as [<- <-].
    exists es1, es2. repeat split; auto. rewrite O, <- app_assoc. reflexivity.
  Qed.
  (** a new graph, and out again: the whole screen *)
  Theorem first_visit fuel dir n c w : 3 < fuel -> plain n -> no_nul dir -> disk w -> dir_there dir w ->
    (entry_at (dir ++ [n]) w = None \/ entry_at (dir ++ [n]) w = Some EDir) ->
    (forall p, In p (files_of (graph_at dir n)) -> entry_at p w = None) ->
    (forall p, In p (files_of (graph_at dir n)) -> shown_as_is p) ->
    c <> py "y" -> c <> py "yes" -> w_in w = [c; n; py "q"] ->
    exists es w', trun (start_wiggle_shell_t u pt fuel dir) w = (es, Ok tt, w') /\ stored (graph_at dir n) empty_graph w' /\
      on_screen es = py "**********************" ++ [10%N] ++ py "Welcome to WiggleGraph" ++ [10%N] ++ py "**********************" ++ [10%N] ++ [10%N] ++
        py "Use existing dbms (y/n):     " ++ py "Please enter a new db name:     " ++ py "Using " ++ n ++ [10%N] ++
        using_line (graph_at dir n) ++ [10%N] ++ py "Please enter a query (q to exit):      " ++ py "q " ++ [10%N] ++ [10%N] ++ py "Good Bye!" ++ [10%N].
  Proof.
    intros FU P NN DK T HF HN SH C1 C2 E. destruct fuel as [|f]; [lia|].
    set (w1 := {| w_fs := w_fs w; w_in := [py "q"]; w_out := w_out (greet w) |}). assert (SD : same_disk w w1) by reflexivity.
    destruct (new_graph dir n w1 P NN (disk_same _ _ SD DK) T HF HN) as (w2 & R & ST & _ & _ & K & I & O).
    assert (SEL : trun (select_gdbms_t (S f) dir) (greet w) = ([Asked ask_existing (Some c); Asked ask_name (Some n); Wrote (py "Using " ++ n)], Ok (graph_at dir n), w2)).
    { unfold select_gdbms_t. rewrite trun_bind, trun_ask. cbn [greet w_in]. rewrite E.
      destruct (str_eqb c (py "y")) eqn:E1; [apply str_eqb_eq in E1; contradiction|]. destruct (str_eqb c (py "yes")) eqn:E2; [apply str_eqb_eq in E2; contradiction|].
      cbn [orb create_new_dbms_t]. rewrite trun_bind, trun_ask. cbn [rest w_in]. rewrite trun_bind.
      change (rest [py "q"] (rest [n; py "q"] {| w_fs := w_fs w; w_in := [c; n; py "q"]; w_out := w_out w ++ banner |})) with w1.
      change (rest [py "q"] (rest [n; py "q"] {| w_fs := w_fs w; w_in := w_in w; w_out := w_out w ++ banner |})) with w1.
      match goal with |- context [trun (plainly ?m) ?v] => change v with w1; destruct (trun_plainly m w1) as (ts & -> & TS); assert (RM : run m w1 = (Ok (Some (graph_at dir n)), w2)) by (rewrite run_catch, run_bind, R; reflexivity) end.
      rewrite RM in TS |- *. cbn [fst snd] in TS |- *. rewrite O in TS. apply app_inv_head in TS. subst ts. reflexivity. }
    rewrite start_run, SEL. rewrite (using_text _ SH). cbn [shell_loop_t]. rewrite trun_bind, trun_ask. cbn [says w_in]. rewrite I. cbn [w1 w_in]. rewrite trun_bind, trun_line.
    change (str_eqb (py "q") (py "q")) with true. cbn beta iota. rewrite trun_line. eexists _, _. split; [reflexivity|]. split; [eapply stored_fs; [|exact ST]; reflexivity|].
    unfold events. cbn [fst snd map banner app]. unfold on_screen. cbn [map concat]. rewrite <- !app_assoc, app_nil_r. reflexivity.
  Qed.
End Loop.
