(** * OsMore: creating graphs under ordinary and under other names (C77) *)
From Verif Require Import PyBase BaseFacts Json FS FSFacts Store Query SpecStore SpecShell SpecGdbms OsNames SpecOsNames Confine GdbmsFacts OsFacts Gdbms.

Lemma some_inv {A} (a b : A) : Some a = Some b -> a = b.
Proof. congruence. Qed.
(** ** lengths *)
Lemma octets_app a b : octets (a ++ b) = (octets a + octets b)%N.
Proof. unfold octets, utf8. rewrite flat_map_app, app_length. lia. Qed.
Lemma good_plain n : good_name n -> plain n.
Proof. intros [P _]. exact P. Qed.
Lemma good_ordinary n : good_name n -> ordinary [n].
Proof. intros [(_ & _ & _ & _ & N) L] c [<-|[]]. split; [exact N|lia]. Qed.
Lemma dotdot_length : octets (py "..") = 2%N.
Proof. reflexivity. Qed.
Lemma file_ordinary pre n post : (2 < octets pre)%N -> (octets pre + octets n + octets post <= 255)%N -> ordinary [pre ++ n ++ post].
Proof.
  intros A B c [<-|[]]. split; [|rewrite !octets_app; lia].
  intros E. apply (f_equal octets) in E. rewrite !octets_app, dotdot_length in E. lia.
Qed.
Lemma db_name_ordinary n : (octets n <= 241)%N -> ordinary [py "database_" ++ n ++ py ".json"].
Proof. intros L. apply file_ordinary; [reflexivity|]. change (octets (py "database_")) with 9%N. change (octets (py ".json")) with 5%N. lia. Qed.
Lemma idx_name_ordinary n : (octets n <= 242)%N -> ordinary [py "indexes_" ++ n ++ py ".json"].
Proof. intros L. apply file_ordinary; [reflexivity|]. change (octets (py "indexes_")) with 8%N. change (octets (py ".json")) with 5%N. lia. Qed.
Lemma wn_name_ordinary n : (octets n <= 237)%N -> ordinary [py "wiggle_number_" ++ n ++ py ".txt"].
Proof. intros L. apply file_ordinary; [reflexivity|]. change (octets (py "wiggle_number_")) with 14%N. change (octets (py ".txt")) with 4%N. lia. Qed.

(** ** making folders *)
Lemma mkdirs_made ps : forall f f', mkdirs ps f = (None, f') -> forall d, In d ps -> fs_get d f' = Some EDir.
Proof.
  induction ps as [|p ps IH]; intros f f' E d I; [destruct I|]. cbn [mkdirs] in E.
  destruct (fs_get p f) as [[|t]|] eqn:G; [|discriminate|].
  - destruct I as [<-|I]; [eapply mkdirs_kept; eassumption|eapply IH; eassumption].
  - destruct I as [<-|I]; [eapply mkdirs_kept; [exact E|apply fs_get_set_same]|eapply IH; eassumption].
Qed.
Lemma made_dirs p f f' : mkdirs (prefixes p) f = (None, f') -> forall q r, p = q ++ r -> fs_is_dir q f' = true.
Proof.
  intros E q r Q. destruct q as [|x q]; [reflexivity|]. unfold fs_is_dir.
  rewrite (mkdirs_made _ _ _ E (x :: q)); [reflexivity|]. apply prefixes_spec. split; [discriminate|exists r; exact Q].
Qed.
Lemma exec_touch_dirs q w p : fs_is_dir p (w_fs (snd (exec (CTouch q) w))) = fs_is_dir p (w_fs w).
Proof.
  cbn [exec]. destruct (fs_get q (w_fs w)) eqn:E; [reflexivity|]. destruct (fs_is_dir (parent q) (w_fs w)); [|reflexivity].
  cbn [snd with_fs w_fs]. apply is_dir_file. destruct q; [auto|]. left. unfold fs_is_dir. rewrite E. reflexivity.
Qed.
Lemma dirs_to_same d p f f' : (forall q, fs_is_dir q f' = fs_is_dir q f) -> dirs_to d p f -> dirs_to d p f'.
Proof. intros E T q r Q R. rewrite E. exact (T q r Q R). Qed.
Lemma snoc_dirs (dir : path) x f : (forall q r, dir = q ++ r -> fs_is_dir q f = true) -> dirs_to [] (dir ++ [x]) f.
Proof.
  intros H q r E R. cbn [app]. destruct (exists_last R) as (r' & y & ->). rewrite app_assoc in E. apply app_inj_tail in E as [E _]. exact (H q r' E).
Qed.

(** ** creation under a good name *)
Lemma run_do_unit c w a w' : run (do_unit c) w = (Ok a, w') -> w' = snd (exec c w).
Proof. cbn [do_unit run]. destruct (exec c w) as [r x]. destruct r; cbn [run snd]; congruence. Qed.
Lemma run_do_bool c w a w' : run (do_bool c) w = (Ok a, w') -> w' = snd (exec c w).
Proof. cbn [do_bool run]. destruct (exec c w) as [r x]. destruct r; cbn [run snd]; congruence. Qed.
Lemma fine_create_file dir n x content w : plain n -> ordinary (dir ++ [n]) -> ordinary [x] -> fine (create_file dir n (dir ++ [n; x]) content) w.
Proof.
  intros P O OX. assert (O' : ordinary (dir ++ [n; x])).
  { change [n; x] with ([n] ++ [x]). rewrite app_assoc. apply ordinary_app. auto. }
  unfold create_file. apply fine_bind.
  { unfold mkdir. rewrite joinpath_plain by exact P. destruct (has_nul (dir ++ [n])); [exact I|]. apply fine_unit. exact O. }
  intros a w1 R1. unfold mkdir in R1. rewrite joinpath_plain in R1 by exact P. destruct (has_nul (dir ++ [n])); [discriminate|].
  assert (T1 : dirs_to [] (dir ++ [n; x]) (w_fs w1)).
  { cbn [do_unit run exec] in R1. destruct (mkdirs (prefixes (dir ++ [n])) (w_fs w)) as [[e|] f1] eqn:E1; [discriminate|]. cbn [run] in R1.
    assert (W1 : w1 = with_fs w f1) by congruence. rewrite W1. cbn [with_fs w_fs].
    change [n; x] with ([n] ++ [x]). rewrite app_assoc. apply snoc_dirs. exact (made_dirs _ _ _ E1). }
  apply fine_bind; [apply fine_bool; split; assumption|]. intros b w2 R2. apply run_do_bool in R2.
  assert (T2 : dirs_to [] (dir ++ [n; x]) (w_fs w2)) by (rewrite R2; exact T1). destruct b; [exact I|].
  apply fine_bind; [apply fine_unit; split; assumption|]. intros a3 w3 R3. apply run_do_unit in R3.
  assert (T3 : dirs_to [] (dir ++ [n; x]) (w_fs w3)) by (rewrite R3; eapply dirs_to_same; [intros q; apply exec_touch_dirs|exact T2]).
  apply fine_bind; [apply fine_unit; split; assumption|]. intros a4 w4 R4. apply run_do_unit in R4.
  assert (T4 : dirs_to [] (dir ++ [n; x]) (w_fs w4)).
  { rewrite R4. eapply dirs_to_same; [intros q; apply (exec_dirs [dir ++ [n; x]]); left; reflexivity|exact T3]. }
  apply fine_bind; [apply fine_unit; split; assumption|]. intros a5 w5 R5. exact I.
Qed.
Lemma files_plain dir n : plain n ->
  db_file dir n = dir ++ [n; py "database_" ++ n ++ py ".json"] /\ idx_file dir n = dir ++ [n; py "indexes_" ++ n ++ py ".json"] /\
  wn_file dir n = dir ++ [n; py "wiggle_number_" ++ n ++ py ".txt"].
Proof. intros P. rewrite db_file_plain, idx_file_plain, wn_file_plain by exact P. auto. Qed.
Lemma fine_print t w : fine (do_unit (CPrint t)) w.
Proof. apply fine_unit. exact I. Qed.
Lemma fine_new n dir w : good_name n -> ordinary dir -> fine (get_new_gdbms_file_paths n dir) w.
Proof.
  intros G OD. pose proof (good_plain n G) as P. destruct (files_plain dir n P) as (E1 & E2 & E3).
  assert (O : ordinary (dir ++ [n])) by (apply ordinary_app; auto using good_ordinary). destruct G as [_ L].
  unfold get_new_gdbms_file_paths, create_new_database, create_new_indexes_file, create_new_wiggle_number_file. rewrite E1, E2, E3.
  apply fine_catch.
  - apply fine_bind; [apply fine_create_file; try assumption; apply db_name_ordinary; lia|]. intros a1 w1 _.
    apply fine_bind; [apply fine_create_file; try assumption; apply idx_name_ordinary; lia|]. intros a2 w2 _.
    apply fine_bind; [apply fine_create_file; try assumption; apply wn_name_ordinary; lia|]. intros a3 w3 _.
    apply fine_bind; [apply fine_print|]. intros; exact I.
  - intros e m' w' _ H. destruct (is_value_error e); [|discriminate]. apply some_inv in H. subst m'.
    apply fine_bind; [apply fine_print|]. intros; exact I.
Qed.

(** ** the dialogues *)
Lemma exec_input_less c w : List.length (w_in (snd (exec c w))) <= List.length (w_in w).
Proof.
  destruct c; try (rewrite exec_keeps_in by discriminate; lia). cbn [exec]. destruct (w_in w) as [|t r] eqn:E; cbn [snd w_in]; [rewrite E; lia|cbn [List.length]; lia].
Qed.
Lemma run_input_less {A} (m : io A) : forall w, List.length (w_in (snd (run m w))) <= List.length (w_in w).
Proof.
  induction m as [a|e|c k IH]; intros w; cbn [run snd]; try lia. pose proof (exec_input_less c w) as H.
  destruct (exec c w) as [r w']. cbn [snd] in H. specialize (IH r w'). lia.
Qed.
Lemma run_bind_snd {A B} (m : io A) (f : A -> io B) w a w' : run m w = (Ok a, w') -> run (io_bind m f) w = run (f a) w'.
Proof. intros E. rewrite run_bind, E. reflexivity. Qed.
Definition typed (s : pystr) (r : list pystr) (w : world) : world := {| w_fs := w_fs w; w_in := r; w_out := w_out w |}.
Lemma try_new_in n dir w : w_in (snd (run (io_catch (let! g := get_new_gdbms_file_paths n dir in Ret (Some g))
     (fun e => if is_value_error e then Some (let! _ := do_unit (CPrint (taken_msg n)) in Ret None) else None)) w)) = w_in w.
Proof.
  apply no_input_run. apply ni_catch; [apply ni_bind; [apply ni_new|intros; constructor]|]. intros e m' E.
  destruct (is_value_error e); [|discriminate]. apply some_inv in E. subst m'. apply ni_bind; [apply ni_unit; discriminate|intros; constructor].
Qed.
Lemma fine_create fuel : forall dir a b w, ordinary dir -> w_in w = a ++ b -> Forall good_name a ->
  List.length b <= List.length (w_in (snd (run (create_new_dbms fuel dir) w))) -> fine (create_new_dbms fuel dir) w.
Proof.
  induction fuel as [|fuel IH]; intros dir a b w O W G LB; [exact I|]. cbn [create_new_dbms] in *.
  apply fine_bind; [apply fine_text; exact I|]. intros n w1 R1.
  rewrite (run_bind_snd _ _ _ _ _ R1) in LB. rewrite input_run in R1. rewrite W in R1.
  destruct a as [|s a].
  { cbn [app] in R1. destruct b as [|s b]; [discriminate|]. assert (E1 : w1 = {| w_fs := w_fs w; w_in := b; w_out := w_out w |}) by congruence.
    match type of LB with _ <= List.length (w_in (snd (run ?m _))) => pose proof (run_input_less m w1) as LE end.
    assert (EI : w_in w1 = b) by (rewrite E1; reflexivity). rewrite EI in LE. cbn [List.length] in LB. lia. }
  cbn [app] in R1. assert (E0 : n = s) by congruence. subst s.
  assert (E1 : w_in w1 = a ++ b) by (assert (X : w1 = {| w_fs := w_fs w; w_in := a ++ b; w_out := w_out w |}) by congruence; rewrite X; reflexivity).
  inversion G as [|n' a' GN GA]; subst.
  apply fine_bind.
  { apply fine_catch.
    - apply fine_bind; [apply fine_new; assumption|]. intros; exact I.
    - intros e m' w' _ H. destruct (is_value_error e); [|discriminate]. apply some_inv in H. subst m'. apply fine_bind; [apply fine_print|]. intros; exact I. }
  intros r w2 R2. rewrite (run_bind_snd _ _ _ _ _ R2) in LB. pose proof (try_new_in n dir w1) as K. rewrite R2 in K. cbn [snd] in K.
  destruct r as [g|]; [exact I|]. apply (IH dir a b w2 O); [rewrite K; exact E1|exact GA|exact LB].
Qed.

(** ** what a creation leaves *)
Lemma run_bind_ok {A B} (m : io A) (f : A -> io B) w b w2 : run (io_bind m f) w = (Ok b, w2) -> exists a w1, run m w = (Ok a, w1) /\ run (f a) w1 = (Ok b, w2).
Proof. rewrite run_bind. destruct (run m w) as [[a|e] w1]; intros R; [exists a, w1; auto|discriminate]. Qed.
Lemma created_dirs dir n f content w p w' : run (create_file dir n f content) w = (Ok p, w') ->
  p = f /\ forall q r, joinpath dir n = q ++ r -> fs_is_dir q (w_fs w') = true.
Proof.
  intros R. unfold create_file in R. apply run_bind_ok in R as (a1 & w1 & R1 & R). unfold mkdir in R1. destruct (has_nul (joinpath dir n)); [discriminate|].
  assert (T1 : forall q r, joinpath dir n = q ++ r -> fs_is_dir q (w_fs w1) = true).
  { cbn [do_unit run exec] in R1. destruct (mkdirs (prefixes (joinpath dir n)) (w_fs w)) as [[e|] f1] eqn:E1; [discriminate|]. cbn [run] in R1.
    assert (W1 : w1 = with_fs w f1) by congruence. rewrite W1. exact (made_dirs _ _ _ E1). }
  apply run_bind_ok in R as (b & w2 & R2 & R). apply run_do_bool in R2. destruct b; [discriminate|].
  apply run_bind_ok in R as (a3 & w3 & R3 & R). apply run_do_unit in R3.
  apply run_bind_ok in R as (a4 & w4 & R4 & R). apply run_do_unit in R4.
  apply run_bind_ok in R as (a5 & w5 & R5 & R). apply run_do_unit in R5. cbn [run] in R.
  split; [congruence|]. intros q r E. assert (W5 : w' = w5) by congruence. rewrite W5, R5.
  rewrite (exec_dirs [f]) by (left; reflexivity). rewrite R4. rewrite (exec_dirs [f]) by (left; reflexivity). rewrite R3, exec_touch_dirs, R2. exact (T1 q r E).
Qed.
Lemma new_shape n dir w g w' : plain n -> run (get_new_gdbms_file_paths n dir) w = (Ok g, w') ->
  g = graph_at dir n /\ forall q r, dir ++ [n] = q ++ r -> fs_is_dir q (w_fs w') = true.
Proof.
  intros P R. unfold get_new_gdbms_file_paths in R. rewrite run_catch in R.
  match type of R with (let (r, w'') := run ?m w in _) = _ => destruct (run m w) as [[x|e] w0] eqn:E end.
  - apply run_bind_ok in E as (a1 & w1 & R1 & E). apply run_bind_ok in E as (a2 & w2 & R2 & E). apply run_bind_ok in E as (a3 & w3 & R3 & E).
    apply created_dirs in R1 as [-> _]. apply created_dirs in R2 as [-> _]. apply created_dirs in R3 as [-> T].
    apply run_bind_ok in E as (a4 & w4 & R4 & E). apply run_do_unit in R4. cbn [run] in E.
    rewrite joinpath_plain in T by exact P. destruct (files_plain dir n P) as (E1 & E2 & E3).
    split; [|intros q r Q; assert (W : w' = w4) by congruence; rewrite W, R4; exact (T q r Q)].
    unfold graph_at. rewrite <- E1, <- E2, <- E3. congruence.
  - destruct (is_value_error e); [|discriminate]. apply run_bind_ok in R as (a & w1 & _ & R). discriminate.
Qed.
Lemma create_shape fuel : forall dir a b w g w', w_in w = a ++ b -> Forall good_name a ->
  run (create_new_dbms fuel dir) w = (Ok g, w') -> List.length b <= List.length (w_in w') ->
  exists n, good_name n /\ g = graph_at dir n /\ forall q r, dir ++ [n] = q ++ r -> fs_is_dir q (w_fs w') = true.
Proof.
  induction fuel as [|fuel IH]; intros dir a b w g w' W G R LB; [discriminate|]. cbn [create_new_dbms] in R.
  apply run_bind_ok in R as (n & w1 & R1 & R). rewrite input_run, W in R1.
  destruct a as [|s a].
  { cbn [app] in R1. destruct b as [|s b]; [discriminate|]. assert (E1 : w_in w1 = b) by (assert (X : w1 = {| w_fs := w_fs w; w_in := b; w_out := w_out w |}) by congruence; rewrite X; reflexivity).
    match type of R with run ?m _ = _ => pose proof (run_input_less m w1) as LE; rewrite R in LE end. cbn [snd] in LE. rewrite E1 in LE. cbn [List.length] in LB. lia. }
  cbn [app] in R1. assert (E0 : n = s) by congruence. subst s.
  assert (E1 : w_in w1 = a ++ b) by (assert (X : w1 = {| w_fs := w_fs w; w_in := a ++ b; w_out := w_out w |}) by congruence; rewrite X; reflexivity).
  inversion G as [|n' a' GN GA]; subst.
  apply run_bind_ok in R as (r & w2 & R2 & R). pose proof (try_new_in n dir w1) as K. rewrite R2 in K. cbn [snd] in K.
  destruct r as [g'|].
  - cbn [run] in R. assert (g' = g /\ w2 = w') as [-> ->] by (split; congruence). exists n. split; [exact GN|].
    rewrite run_catch in R2. match type of R2 with (let (r, w'') := run ?m w1 in _) = _ => destruct (run m w1) as [[x|e] w0] eqn:E end.
    + apply run_bind_ok in E as (g0 & w3 & R3 & E). cbn [run] in E. apply new_shape in R3; [|apply good_plain; exact GN].
      assert (g0 = g /\ w3 = w') as [-> ->] by (split; congruence). exact R3.
    + destruct (is_value_error e); [|discriminate]. apply run_bind_ok in R2 as (a0 & w3 & _ & R2). discriminate.
  - eapply (IH dir a b w2); [rewrite K; exact E1|exact GA|exact R|exact LB].
Qed.
Lemma graph_ways dir n w : good_name n -> ordinary dir -> (forall q r, dir ++ [n] = q ++ r -> fs_is_dir q (w_fs w) = true) -> ways (the_files (graph_at dir n)) w.
Proof.
  intros G O T p I. pose proof (good_ordinary n G) as ON. destruct G as [_ L].
  assert (H : forall x, ordinary [x] -> ordinary (dir ++ [n; x]) /\ dirs_to [] (dir ++ [n; x]) (w_fs w)).
  { intros x OX. change [n; x] with ([n] ++ [x]). rewrite app_assoc. split; [apply ordinary_app; split; [apply ordinary_app; auto|exact OX]|apply snoc_dirs; exact T]. }
  cbn [the_files graph_at database_fp indexes_fp wiggle_number_fp In] in I.
  destruct I as [<-|[<-|[<-|[]]]]; apply H; [apply db_name_ordinary|apply idx_name_ordinary|apply wn_name_ordinary]; lia.
Qed.

(** ** the menu *)
Lemma fine_filter {A} (p : A -> io bool) l w : (forall x, In x l -> fine (p x) w /\ snd (run (p x) w) = w) -> fine (filter_io p l) w.
Proof.
  induction l as [|x l IH]; intros H; [exact I|]. cbn [filter_io]. destruct (H x (or_introl eq_refl)) as [F S].
  apply fine_bind; [exact F|]. intros b w' R. rewrite R in S. cbn [snd] in S. subst w'.
  apply fine_bind; [apply IH; intros y Y; apply H; right; exact Y|]. intros; exact I.
Qed.
Lemma there_dir folder w : dir_there folder w -> is_a_dir folder w.
Proof. intros T. destruct folder as [|x p]; [left; reflexivity|]. right. apply T. split; [discriminate|exists []; rewrite app_nil_r; reflexivity]. Qed.
Lemma there_dirs folder w : dir_there folder w -> forall q r, folder = q ++ r -> fs_is_dir q (w_fs w) = true.
Proof.
  intros T q r E. apply fs_is_dir_spec. destruct q as [|x q]; [left; reflexivity|]. right. apply T. split; [discriminate|exists r; exact E].
Qed.
Lemma fine_print_all l : forall w, fine (print_all l) w.
Proof. induction l as [|t l IH]; intros w; [exact I|]. cbn [print_all]. apply fine_bind; [apply fine_print|]. intros; apply IH. Qed.
Lemma fine_display folder w : ordinary folder -> disk w -> dir_there folder w -> names_allowed w -> fine (get_and_display_available_dbms folder) w.
Proof.
  intros O D T N. unfold get_and_display_available_dbms. apply fine_bind.
  - unfold list_existing_dbms. apply fine_bind.
    + apply fine_names. split; [exact O|]. intros q r E R. exact (there_dirs folder w T q r E).
    + intros names w1 R1. cbn [do_names run exec] in R1. rewrite (proj2 (fs_is_dir_spec folder w) (there_dir _ _ T)) in R1. cbn [run] in R1.
      assert (names = children folder (w_fs w) /\ w = w1) as [-> <-] by (split; congruence).
      apply fine_bind; [|intros; exact I]. apply fine_filter. intros x X. apply children_spec in X as (e & X); [|apply D]. split.
      * apply fine_bind; [|intros; exact I]. apply fine_bool. split; [eapply N; exact X|]. apply snoc_dirs. exact (there_dirs folder w T).
      * rewrite run_bind. reflexivity.
  - intros l w1 _. destruct l as [|x l]; [exact I|]. cbv zeta. apply fine_bind; [apply fine_print|]. intros a2 w2 _. apply fine_bind; [apply fine_print_all|].
    intros a3 w3 _. apply fine_bind; [apply fine_print|]. intros; exact I.
Qed.
Lemma fine_existing_file folder n x w : good_name n -> ordinary folder -> dir_there folder w -> entry_at (folder ++ [n]) w = Some EDir -> ordinary [x] ->
  fine (existing_file (folder ++ [n; x])) w.
Proof.
  intros G O T F OX. unfold existing_file. apply fine_bind; [|intros []; intros; exact I]. apply fine_bool. change [n; x] with ([n] ++ [x]). rewrite app_assoc. split.
  - apply ordinary_app. split; [apply ordinary_app; auto using good_ordinary|exact OX].
  - apply snoc_dirs. intros q r E. destruct (exists_last (l := folder ++ [n])) as (y & z & _); [destruct folder; discriminate|].
    destruct r as [|c r] using rev_ind; [rewrite app_nil_r in E; subst q; apply fs_is_dir_spec; right; exact F|].
    rewrite app_assoc in E. apply app_inj_tail in E as [E _]. exact (there_dirs folder w T q r E).
Qed.
Lemma not_found_run w1 w2 : run (let! _ := do_unit (CPrint (py "Database files could not be found ")) in Ret (@None gdbms)) w1 = (Ok None, w2) ->
  w2 = say [py "Database files could not be found "] w1.
Proof. rewrite run_bind, print_run. cbn [run]. congruence. Qed.
Lemma fine_existing fuel : forall folder a b w, ordinary folder -> disk w -> dir_there folder w -> names_allowed w -> good_graphs folder w ->
  w_in w = a ++ b -> Forall good_name a -> List.length b <= List.length (w_in (snd (run (get_existing_gdbms fuel folder folder) w))) ->
  fine (get_existing_gdbms fuel folder folder) w /\
  (forall g w', run (get_existing_gdbms fuel folder folder) w = (Ok g, w') -> ways (the_files g) w').
Proof.
  induction fuel as [|fuel IH]; intros folder a b w O D T N GG W G LB; [split; [exact I|discriminate]|].
  destruct (menu_exists folder w D (there_dir _ _ T)) as (l & M).
  pose proof (display_run folder w l D (there_dir _ _ T) M) as DR.
  destruct l as [|x l].
  - cbn [get_existing_gdbms] in *. rewrite (run_bind_snd _ _ _ _ _ DR) in LB |- *. cbv iota in LB |- *. split.
    + apply fine_bind; [apply fine_display; assumption|]. intros c w1 R1. rewrite DR in R1. assert (c = None /\ w1 = w) as [-> ->] by (split; congruence).
      apply fine_bind; [apply fine_print|]. intros a2 w2 R2. rewrite (run_bind_snd _ _ _ _ _ R2) in LB. rewrite print_run in R2.
      assert (W2 : w2 = say [py "There are no databases, please create a new database."] w) by congruence.
      eapply (fine_create fuel folder a b w2); [exact O|rewrite W2; exact W|exact G|exact LB].
    + intros g w' R. apply run_bind_ok in R as (a2 & w2 & R2 & R). rewrite (run_bind_snd _ _ _ _ _ R2) in LB. rewrite print_run in R2.
      assert (W2 : w2 = say [py "There are no databases, please create a new database."] w) by congruence.
      rewrite R in LB. cbn [snd] in LB.
      destruct (create_shape fuel folder a b w2 g w') as (n & GN & -> & TT); [rewrite W2; exact W|exact G|exact R|exact LB|]. apply graph_ways; assumption.
  - rewrite (get_existing_step fuel folder folder w (x :: l) D (there_dir _ _ T) M) in LB |- * by discriminate.
    assert (FG : forall n, In n (x :: l) -> good_name n /\ entry_at (folder ++ [n]) w = Some EDir).
    { intros n Hn. apply M in Hn as (H1 & H2 & H3). split; [apply GG; assumption|exact H1]. }
    rewrite W in LB |- *.
    (* the next line of input *)
    destruct a as [|s a].
    { cbn [app] in LB |- *. destruct b as [|s b].
      - split; [|intros g w' R; discriminate]. cbn [get_existing_gdbms]. apply fine_bind; [apply fine_display; assumption|]. intros c w1 R1. rewrite DR in R1.
        assert (c = Some (menu_lines (x :: l)) /\ w1 = say (shown (x :: l)) w) as [-> ->] by (split; congruence).
        destruct (menu_lines (x :: l)) as [|kv ml] eqn:ML; [discriminate|]. apply fine_bind; [apply fine_text; exact I|].
        intros s w2 R2. rewrite input_run in R2. cbn [say w_in] in R2. rewrite W in R2. discriminate.
      - exfalso. cbv zeta in LB. cbn [List.length] in LB.
        assert (LE : forall m : io gdbms, forall t, List.length (w_in (snd (run m (say t {| w_fs := w_fs w; w_in := b; w_out := w_out w ++ shown (x :: l) |})))) <= List.length b)
          by (intros m t; etransitivity; [apply run_input_less|reflexivity]).
        destruct (d_get s (letters (x :: l))) as [n|].
        + destruct (files_there folder n w).
          * cbn [snd w_in] in LB. lia.
          * match type of LB with _ <= List.length (w_in (snd (run ?m (say ?t _)))) => specialize (LE m t) end. lia.
        + match type of LB with _ <= List.length (w_in (snd (run ?m (say ?t _)))) => specialize (LE m t) end. lia. }
    cbn [app] in LB |- *. inversion G as [|s' a' GS GA]; subst. cbv zeta in LB |- *.
    set (w1 := {| w_fs := w_fs w; w_in := a ++ b; w_out := w_out w ++ shown (x :: l) |}) in *.
    assert (NEXT : forall t, List.length b <= List.length (w_in (snd (run (get_existing_gdbms fuel folder folder) (say t w1)))) ->
      fine (get_existing_gdbms fuel folder folder) (say t w1) /\ (forall g w', run (get_existing_gdbms fuel folder folder) (say t w1) = (Ok g, w') -> ways (the_files g) w')).
    { intros t LT. apply (IH folder a b); try assumption; try reflexivity.
      eapply disk_same; [|exact D]. reflexivity. }
    split.
    + cbn [get_existing_gdbms]. apply fine_bind; [apply fine_display; assumption|]. intros c w0 R1. rewrite DR in R1.
      assert (c = Some (menu_lines (x :: l)) /\ w0 = say (shown (x :: l)) w) as [-> ->] by (split; congruence). clear R1.
      rewrite <- letters_eq. destruct (letters (x :: l)) as [|kv ml] eqn:ML; [rewrite letters_eq in ML; discriminate|]. rewrite <- ML in *.
      apply fine_bind; [apply fine_text; exact I|]. intros sel w2 R2. rewrite input_run in R2. cbn [say w_in w_fs w_out] in R2. rewrite W in R2. cbn [app] in R2.
      assert (sel = s /\ w2 = w1) as [-> ->] by (split; unfold w1; congruence). clear R2.
      destruct (d_get s (letters (x :: l))) as [n|] eqn:DG.
      * apply menu_get in DG as (i & Hi & _ & Hn). apply nth_error_In in Hn. destruct (FG n Hn) as [GN FN].
        destruct (files_plain folder n (good_plain n GN)) as (E1 & E2 & E3).
        assert (L : (octets n <= 237)%N) by (destruct GN; assumption).
        apply fine_bind.
        -- apply fine_catch.
           ++ rewrite E1, E2, E3.
              apply fine_bind; [apply fine_existing_file; try assumption; apply db_name_ordinary; lia|]. intros a2 w2 R2.
              rewrite existing_run in R2. assert (w2 = w1) as -> by (destruct (fs_is_file _ _) in R2; congruence).
              apply fine_bind; [apply fine_existing_file; try assumption; apply idx_name_ordinary; lia|]. intros a3 w3 R3.
              rewrite existing_run in R3. assert (w3 = w1) as -> by (destruct (fs_is_file _ _) in R3; congruence).
              apply fine_bind; [apply fine_existing_file; try assumption; apply wn_name_ordinary; lia|]. intros; exact I.
           ++ intros e m' w' _ H. destruct e; try discriminate. apply some_inv in H. subst m'. apply fine_bind; [apply fine_print|]. intros; exact I.
        -- intros r w2 R2. destruct r as [g|]; [exact I|].
           assert (R3 : files_there folder n w = false /\ w2 = say [py "Database files could not be found "] w1).
           { unfold files_there. change (w_fs w) with (w_fs w1). rewrite run_catch, run_bind, existing_run in R2.
             destruct (fs_is_file (db_file folder n) (w_fs w1)) eqn:F1; cbn [andb]; [|split; [reflexivity|exact (not_found_run w1 w2 R2)]].
             rewrite run_bind, existing_run in R2.
             destruct (fs_is_file (idx_file folder n) (w_fs w1)) eqn:F2; cbn [andb]; [|split; [reflexivity|exact (not_found_run w1 w2 R2)]].
             rewrite run_bind, existing_run in R2.
             destruct (fs_is_file (wn_file folder n) (w_fs w1)) eqn:F3; [discriminate|split; [reflexivity|exact (not_found_run w1 w2 R2)]]. }
           destruct R3 as [FT ->]. rewrite FT in LB. exact (proj1 (NEXT _ LB)).
      * apply fine_bind; [apply fine_print|]. intros a2 w2 R2. apply run_do_unit in R2. rewrite R2. exact (proj1 (NEXT _ LB)).
    + destruct (d_get s (letters (x :: l))) as [n|] eqn:DG; [|intros g w' R; exact (proj2 (NEXT _ LB) g w' R)].
      destruct (files_there folder n w); [|intros g w' R; exact (proj2 (NEXT _ LB) g w' R)].
      intros g w' R. apply menu_get in DG as (i & Hi & _ & Hn). apply nth_error_In in Hn. destruct (FG n Hn) as [GN FN].
      assert (g = graph_at folder n /\ w' = w1) as [-> ->] by (rewrite <- paths_for_plain by (apply good_plain; exact GN); split; congruence).
      apply graph_ways; try assumption. intros q r E.
      destruct r as [|c r] using rev_ind; [rewrite app_nil_r in E; subst q; apply fs_is_dir_spec; right; exact FN|].
      rewrite app_assoc in E. apply app_inj_tail in E as [E _]. exact (there_dirs folder w T q r E).
Qed.

(** ** the whole program *)
Lemma run_out {A} (m : io A) : forall w v, w_fs v = w_fs w -> w_in v = w_in w ->
  fst (run m v) = fst (run m w) /\ w_fs (snd (run m v)) = w_fs (snd (run m w)) /\ w_in (snd (run m v)) = w_in (snd (run m w)).
Proof.
  induction m as [a|e|c k IH]; intros w v F I; cbn [run fst snd]; [auto|auto|].
  assert (H : fst (exec c v) = fst (exec c w) /\ w_fs (snd (exec c v)) = w_fs (snd (exec c w)) /\ w_in (snd (exec c v)) = w_in (snd (exec c w))).
  { destruct c; cbn [exec]; rewrite ?F; auto.
    - destruct (fs_get p (w_fs w)) as [[|]|]; cbn; auto.
    - destruct (fs_get p (w_fs w)) as [[|]|]; cbn; auto.
    - destruct (fs_get p (w_fs w)) as [[|]|]; cbn; auto.
    - destruct (fs_get p (w_fs w)) as [[|]|]; cbn; auto. destruct (fs_is_dir (parent p) (w_fs w)); cbn; auto.
    - destruct (mkdirs (prefixes p) (w_fs w)) as [[e|] f']; cbn; auto.
    - destruct (fs_get p (w_fs w)) as [[|]|]; cbn; auto. destruct (fs_is_dir (parent p) (w_fs w)); cbn; auto.
    - destruct (fs_is_dir p (w_fs w)); cbn; auto. destruct (fs_get p (w_fs w)); cbn; auto.
    - destruct (fs_get p (w_fs w)) as [[|]|]; cbn; auto.
    - destruct (fs_get p (w_fs w)) as [[|]|]; cbn; auto. destruct (children p (w_fs w)); cbn; auto.
    - rewrite I. destruct (w_in w) as [|t r] eqn:E; cbn; rewrite ?I, ?E, ?F; auto. }
  destruct H as (H1 & H2 & H3). destruct (exec c v) as [r v'], (exec c w) as [r' w']. cbn [fst snd] in H1, H2, H3. subst r'. apply IH; assumption.
Qed.
Theorem select_same fuel folder a b w : ordinary folder -> disk w -> dir_there folder w -> names_allowed w -> good_graphs folder w ->
  w_in w = a ++ b -> Forall good_name a -> List.length b <= List.length (w_in (snd (run (select_gdbms fuel folder) w))) ->
  os_run (select_gdbms fuel folder) w = run (select_gdbms fuel folder) w /\
  (forall g w', run (select_gdbms fuel folder) w = (Ok g, w') -> ways (the_files g) w').
Proof.
  intros O D T N GG W G LB. enough (H : fine (select_gdbms fuel folder) w /\ (forall g w', run (select_gdbms fuel folder) w = (Ok g, w') -> ways (the_files g) w')).
  { destruct H as [H1 H2]. split; [apply fine_run; exact H1|exact H2]. }
  unfold select_gdbms in *.
  assert (HI : run (do_text CInput) w = match w_in w with [] => (Err EOFError, w) | s :: r => (Ok s, {| w_fs := w_fs w; w_in := r; w_out := w_out w |}) end) by apply input_run.
  rewrite W in HI. destruct a as [|s a].
  { destruct b as [|s b]; cbn [app] in HI.
    - split; [apply fine_bind; [apply fine_text; exact I|]; intros c w1 R1; rewrite HI in R1; discriminate|]. intros g w' R. rewrite run_bind, HI in R. discriminate.
    - exfalso. rewrite (run_bind_snd _ _ _ _ _ HI) in LB.
      match type of LB with _ <= List.length (w_in (snd (run ?m ?x))) => pose proof (run_input_less m x) as LE end. cbn [w_in List.length] in LE, LB. lia. }
  cbn [app] in HI. inversion G as [|s' a' GS GA]; subst. rewrite (run_bind_snd _ _ _ _ _ HI) in LB |- *. cbv beta in LB |- *.
  set (w1 := {| w_fs := w_fs w; w_in := a ++ b; w_out := w_out w |}) in *.
  assert (S1 : same_disk w w1) by reflexivity.
  destruct (str_eqb s (py "y") || str_eqb s (py "yes")) eqn:E.
  - destruct (fine_existing fuel folder a b w1) as [F1 F2]; try assumption; [eapply disk_same; eauto|reflexivity|].
    split; [|exact F2]. apply fine_bind; [apply fine_text; exact I|]. intros c w2 R2. rewrite HI in R2. assert (c = s /\ w2 = w1) as [-> ->] by (split; congruence). rewrite E. exact F1.
  - split.
    + apply fine_bind; [apply fine_text; exact I|]. intros c w2 R2. rewrite HI in R2. assert (c = s /\ w2 = w1) as [-> ->] by (split; congruence). rewrite E.
      eapply (fine_create fuel folder a b w1); [exact O|reflexivity|exact GA|exact LB].
    + intros g w' R. rewrite R in LB. cbn [snd] in LB. destruct (create_shape fuel folder a b w1 g w') as (n & GN & -> & TT); [reflexivity|exact GA|exact R|exact LB|].
      apply graph_ways; assumption.
Qed.
Theorem program_same {rt : PyRt} fuel folder a b w : ordinary folder -> disk w -> dir_there folder w -> names_allowed w -> good_graphs folder w ->
  w_in w = a ++ b -> Forall good_name a -> List.length b <= List.length (w_in (snd (run (select_gdbms fuel folder) w))) ->
  os_run (start_wiggle_shell fuel folder) w = run (start_wiggle_shell fuel folder) w.
Proof.
  intros O D T N GG W G LB. unfold start_wiggle_shell. rewrite os_run_bind, run_bind.
  rewrite (fine_run _ _ (fine_print_all _ w)), print_all_run.
  match goal with |- context [run (let! g := _ in _) ?x] => set (w1 := x) end.
  assert (S1 : same_disk w w1) by reflexivity.
  destruct (select_same fuel folder a b w1) as [E1 E2]; try assumption; [eapply disk_same; eauto| |].
  { destruct (run_out (select_gdbms fuel folder) w w1) as (_ & _ & ->); [reflexivity|reflexivity|exact LB]. }
  rewrite os_run_bind, run_bind, E1. destruct (run (select_gdbms fuel folder) w1) as [[g|e] w2] eqn:R; [|reflexivity].
  specialize (E2 g w2 eq_refl). rewrite os_run_bind, run_bind, os_print, print_run. cbv iota beta. apply session_same. exact E2.
Qed.
