(** * OsEffects: graphs whose names are not ordinary (C77) *)
From Verif Require Import PyBase BaseFacts Json FS FSFacts Store Query SpecStore SpecShell SpecGdbms OsNames SpecOsNames Confine GdbmsFacts OsFacts OsMore Gdbms.

(** ** walks *)
Definition whole (d p : path) (f : fs) : Prop := forall q r, p = q ++ r -> fs_is_dir (d ++ q) f = true.
Lemma whole_cons d c p f : whole d (c :: p) f -> whole (d ++ [c]) p f.
Proof. intros W q r E. rewrite <- app_assoc. apply (W (c :: q) r). rewrite E. reflexivity. Qed.
Lemma make_way_there p : forall d r f, ordinary p -> whole d p f -> make_way d (p ++ r) f = make_way (d ++ p) r f.
Proof.
  induction p as [|c p IH]; intros d r f O W; [rewrite app_nil_r; reflexivity|]. cbn [app make_way].
  apply ordinary_cons in O as [[N L] O]. rewrite not_dotdot, not_long by assumption.
  pose proof (W [c] p eq_refl) as X. unfold fs_is_dir in X.
  assert (X' : fs_get (d ++ [c]) f = Some EDir).
  { destruct (d ++ [c]) as [|y z] eqn:E; [destruct d; discriminate|]. destruct (fs_get (y :: z) f) as [[|]|]; congruence. }
  rewrite X', IH; [rewrite <- app_assoc; reflexivity|exact O|apply whole_cons; exact W].
Qed.
Lemma locate_there p : forall d r f, ordinary p -> whole d p f -> locate d (p ++ r) f = locate (d ++ p) r f.
Proof.
  induction p as [|c p IH]; intros d r f O W; [rewrite app_nil_r; reflexivity|]. cbn [app locate].
  apply ordinary_cons in O as [[N L] O]. rewrite not_dotdot, not_long by assumption.
  pose proof (W [] (c :: p) eq_refl) as X. rewrite app_nil_r in X. rewrite X. cbn [negb].
  rewrite IH; [rewrite <- app_assoc; reflexivity|exact O|apply whole_cons; exact W].
Qed.
Lemma locate_same p : forall d f f' q, (forall x, fs_is_dir x f' = fs_is_dir x f) -> locate d p f = inl q -> locate d p f' = inl q.
Proof.
  induction p as [|c p IH]; intros d f f' q E L; cbn [locate] in *; [exact L|]. rewrite E.
  destruct (fs_is_dir d f); cbn [negb] in *; [|discriminate]. destruct (str_eqb c dotdot); [eapply IH; eassumption|].
  destruct (too_long c); [discriminate|eapply IH; eassumption].
Qed.
Lemma there_whole dir w : dir_there dir w -> whole [] dir (w_fs w).
Proof. intros T q r E. cbn [app]. exact (there_dirs dir w T q r E). Qed.
Lemma new_is_dir q t f x : fs_get q f = None -> fs_is_dir x (fs_set q (EFile t) f) = fs_is_dir x f.
Proof. intros H. apply is_dir_file. destruct q as [|y q]; [auto|]. left. unfold fs_is_dir. rewrite H. reflexivity. Qed.

(** ** the creation of one file *)
Lemma os_create_new dir n file content w f1 q : has_nul (joinpath dir n) = false -> make_way [] (joinpath dir n) (w_fs w) = (None, f1) ->
  locate [] file f1 = inl q -> fs_get q f1 = None -> fs_is_dir (parent q) f1 = true ->
  os_run (create_file dir n file content) w = (Ok file, put q content (with_fs w f1)).
Proof.
  intros HN MW L G P. unfold create_file. rewrite os_run_bind. unfold mkdir. rewrite HN. cbn [do_unit os_run os_exec]. rewrite MW. cbn [os_run].
  set (w1 := with_fs w f1). rewrite os_run_bind. cbn [do_bool os_run os_exec path_of at_path]. change (w_fs w1) with f1. rewrite L. cbn [exec].
  unfold fs_is_file. change (w_fs w1) with f1. rewrite G. cbn [os_run].
  assert (D : forall t x, fs_is_dir x (w_fs (put q t w1)) = fs_is_dir x f1) by (intros t x; apply new_is_dir; exact G).
  assert (LP : forall t, locate [] file (w_fs (put q t w1)) = inl q) by (intros t; eapply locate_same; [apply D|exact L]).
  assert (X2 : os_exec (CTouch file) w1 = (RUnit, put q [] w1)).
  { cbn [os_exec path_of at_path]. change (w_fs w1) with f1. rewrite L. cbn [exec]. change (w_fs w1) with f1. rewrite G, P. reflexivity. }
  assert (P0 : fs_get q (w_fs (put q [] w1)) = Some (EFile [])) by apply get_put_same.
  assert (X3 : os_exec (CCreate file) (put q [] w1) = (RUnit, put q [] w1)).
  { cbn [os_exec path_of at_path]. rewrite LP. cbn [exec]. rewrite P0. f_equal. fold (put q [] (put q [] w1)). apply put_put. }
  assert (X4 : os_exec (CWrite file 0 content) (put q [] w1) = (RUnit, put q content w1)).
  { cbn [os_exec path_of at_path]. rewrite LP. cbn [exec]. rewrite P0. f_equal. change (put q (write_at [] 0 content) (put q [] w1) = put q content w1).
    rewrite put_put, write_at_0, skipn_nil, app_nil_r. reflexivity. }
  rewrite os_run_bind. cbn [do_unit os_run]. rewrite X2. cbn [os_run]. rewrite os_run_bind. cbn [do_unit os_run]. rewrite X3. cbn [os_run].
  rewrite os_run_bind. cbn [do_unit os_run]. rewrite X4. reflexivity.
Qed.
Definition trouble_exn (t : trouble) : exn := match t with Missing => FileNotFoundError | NotAFolder | TooLong => OSError end.
Lemma os_create_lost dir n file content w f1 t : has_nul (joinpath dir n) = false -> make_way [] (joinpath dir n) (w_fs w) = (None, f1) ->
  locate [] file f1 = inr t -> os_run (create_file dir n file content) w = (Err (trouble_exn t), with_fs w f1).
Proof.
  intros HN MW L. unfold create_file. rewrite os_run_bind. unfold mkdir. rewrite HN. cbn [do_unit os_run os_exec]. rewrite MW. cbn [os_run].
  rewrite os_run_bind. cbn [do_bool os_run os_exec path_of at_path]. change (w_fs (with_fs w f1)) with f1. rewrite L.
  destruct t; cbn [refusal os_run trouble_exn]; try reflexivity;
    rewrite os_run_bind; cbn [do_unit os_run os_exec path_of at_path]; change (w_fs (with_fs w f1)) with f1; rewrite L; reflexivity.
Qed.
Lemma os_create_refused dir n file content w f1 e : has_nul (joinpath dir n) = false -> make_way [] (joinpath dir n) (w_fs w) = (Some e, f1) ->
  os_run (create_file dir n file content) w = (Err e, with_fs w f1).
Proof.
  intros HN MW. unfold create_file. rewrite os_run_bind. unfold mkdir. rewrite HN. cbn [do_unit os_run os_exec]. rewrite MW. reflexivity.
Qed.
Lemma os_new_error n dir w e w' : os_run (let! d := create_new_database n dir in
     let! i := create_new_indexes_file n dir in
     let! w := create_new_wiggle_number_file n dir in
     let! _ := do_unit (CPrint (py "Using " ++ n)) in
     Ret {| database_fp := d; indexes_fp := i; wiggle_number_fp := w |}) w = (Err e, w') -> is_value_error e = false ->
  os_run (get_new_gdbms_file_paths n dir) w = (Err e, w').
Proof. intros R E. unfold get_new_gdbms_file_paths. rewrite os_run_catch, R, E. reflexivity. Qed.

(** ** the name ".." *)
Lemma dd_paths dir : joinpath dir (py "..") = dir ++ [py ".."] /\ db_file dir (py "..") = dir ++ [py ".."; py "database_...json"] /\
  idx_file dir (py "..") = dir ++ [py ".."; py "indexes_...json"] /\ wn_file dir (py "..") = dir ++ [py ".."; py "wiggle_number_...txt"].
Proof. repeat split. Qed.
Lemma has_nul_app p q : has_nul (p ++ q) = has_nul p || has_nul q.
Proof. unfold has_nul. apply existsb_app. Qed.
Lemma has_nul_no p : no_nul p -> has_nul p = false.
Proof.
  unfold no_nul, has_nul. induction 1 as [|c p H _ IH]; [reflexivity|]. cbn [existsb]. rewrite IH, orb_false_r.
  destruct (existsb (N.eqb 0) c) eqn:E; [|reflexivity]. apply existsb_exists in E as (x & X & E). apply N.eqb_eq in E. subst x. contradiction.
Qed.
Lemma dd_way dir f : ordinary dir -> whole [] dir f -> make_way [] (dir ++ [py ".."]) f = (None, f).
Proof. intros O W. rewrite make_way_there by assumption. reflexivity. Qed.
Lemma dd_locate dir x f : ordinary dir -> whole [] dir f -> ordinary [x] -> locate [] (dir ++ [py ".."; x]) f = inl (parent dir ++ [x]).
Proof.
  intros O W OX. rewrite locate_there by assumption. cbn [app locate]. pose proof (W dir [] (eq_sym (app_nil_r dir))) as D. cbn [app] in D. rewrite D. cbn [negb].
  change (str_eqb (py "..") dotdot) with true. cbv iota.
  assert (DP : fs_is_dir (parent dir) f = true).
  { unfold parent. destruct dir as [|c p] using rev_ind; [reflexivity|]. rewrite removelast_last. exact (W p [c] eq_refl). }
  rewrite DP. cbn [negb]. destruct (OX x (or_introl eq_refl)) as [N L]. rewrite not_dotdot, not_long by assumption. reflexivity.
Qed.
Lemma dd_create dir file x content w : ordinary dir -> no_nul dir -> whole [] dir (w_fs w) -> file = dir ++ [py ".."; x] -> ordinary [x] -> entry_at (parent dir ++ [x]) w = None ->
  os_run (create_file dir (py "..") file content) w = (Ok file, put (parent dir ++ [x]) content w) /\ whole [] dir (w_fs (put (parent dir ++ [x]) content w)).
Proof.
  intros O NN W -> OX H. destruct (dd_paths dir) as (EJ & _). split.
  - rewrite (os_create_new dir (py "..") _ content w (w_fs w) (parent dir ++ [x])); [destruct w; reflexivity| | |apply dd_locate; assumption|exact H|].
    + rewrite EJ, has_nul_app, has_nul_no by exact NN. reflexivity.
    + rewrite EJ. apply dd_way; assumption.
    + unfold parent at 1. rewrite removelast_last. unfold parent. destruct dir as [|c p] using rev_ind; [reflexivity|]. rewrite removelast_last. exact (W p [c] eq_refl).
  - intros q r E. cbn [put with_fs w_fs]. rewrite new_is_dir by exact H. exact (W q r E).
Qed.
Theorem dotdot_created dir w : ordinary dir -> no_nul dir -> dir_there dir w ->
  (forall x, In x [py "database_...json"; py "indexes_...json"; py "wiggle_number_...txt"] -> entry_at (parent dir ++ [x]) w = None) ->
  exists w', os_run (get_new_gdbms_file_paths (py "..") dir) w =
      (Ok {| database_fp := dir ++ [py ".."; py "database_...json"]; indexes_fp := dir ++ [py ".."; py "indexes_...json"];
             wiggle_number_fp := dir ++ [py ".."; py "wiggle_number_...txt"] |}, w') /\
    grown [(parent dir ++ [py "database_...json"], EFile (dump_text Compact (VDict [])));
           (parent dir ++ [py "indexes_...json"], EFile (dump_text Compact new_index));
           (parent dir ++ [py "wiggle_number_...txt"], EFile (py "0"))] w w'.
Proof.
  intros O NN T H. pose proof (there_whole dir w T) as W0. destruct (dd_paths dir) as (_ & E1 & E2 & E3).
  set (x1 := py "database_...json") in *. set (x2 := py "indexes_...json") in *. set (x3 := py "wiggle_number_...txt") in *.
  set (tD := dump_text Compact (VDict [])). set (tI := dump_text Compact new_index).
  assert (O1 : ordinary [x1]) by (intros c [<-|[]]; split; [discriminate|vm_compute; discriminate]).
  assert (O2 : ordinary [x2]) by (intros c [<-|[]]; split; [discriminate|vm_compute; discriminate]).
  assert (O3 : ordinary [x3]) by (intros c [<-|[]]; split; [discriminate|vm_compute; discriminate]).
  assert (NE : forall a b, a <> b -> parent dir ++ [a] <> parent dir ++ [b]) by (intros a b N E; apply app_inv_head in E; congruence).
  assert (N12 : x1 <> x2) by discriminate. assert (N13 : x1 <> x3) by discriminate. assert (N23 : x2 <> x3) by discriminate.
  destruct (dd_create dir _ x1 tD w O NN W0 eq_refl O1) as [R1 W1]; [apply H; left; reflexivity|].
  destruct (dd_create dir _ x2 tI (put (parent dir ++ [x1]) tD w) O NN W1 eq_refl O2) as [R2 W2].
  { unfold entry_at. etransitivity; [apply get_put_other, NE; congruence|]. apply H. right. left. reflexivity. }
  set (w2 := put (parent dir ++ [x2]) tI (put (parent dir ++ [x1]) tD w)) in *.
  destruct (dd_create dir _ x3 (py "0") w2 O NN W2 eq_refl O3) as [R3 W3].
  { unfold entry_at, w2. etransitivity; [apply get_put_other, NE; congruence|]. etransitivity; [apply get_put_other, NE; congruence|]. apply H. right. right. left. reflexivity. }
  exists (say [py "Using " ++ py ".."] (put (parent dir ++ [x3]) (py "0") w2)). split.
  - unfold get_new_gdbms_file_paths, create_new_database, create_new_indexes_file, create_new_wiggle_number_file. rewrite E1, E2, E3.
    rewrite os_run_catch, os_run_bind. fold tD tI. rewrite R1. rewrite os_run_bind, R2. rewrite os_run_bind, R3. rewrite os_run_bind, os_print. reflexivity.
  - unfold w2. split.
    + cbn [In]. intros p e [E|[E|[E|[]]]]; injection E as <- <-; unfold entry_at.
      * etransitivity; [apply get_put_other, NE; congruence|]. etransitivity; [apply get_put_other, NE; congruence|]. apply get_put_same.
      * etransitivity; [apply get_put_other, NE; congruence|]. apply get_put_same.
      * apply get_put_same.
    + cbn [map fst In]. intros p N. unfold entry_at.
      etransitivity; [apply get_put_other; intros ->; tauto|]. etransitivity; [apply get_put_other; intros ->; tauto|]. apply get_put_other; intros ->; tauto.
Qed.

(** ** long names *)
Lemma long_yes c : (255 < octets c)%N -> too_long c = true.
Proof. intros L. unfold too_long, NAME_MAX. rewrite byte_length_octets. apply N.ltb_lt. exact L. Qed.
Lemma long_not_dd c : (2 < octets c)%N -> str_eqb c dotdot = false.
Proof. intros L. apply not_dotdot. intros ->. vm_compute in L. discriminate. Qed.
Lemma way_step dir n f : ordinary dir -> whole [] dir f -> make_way [] (dir ++ [n]) f = make_way dir [n] f.
Proof. intros O W. apply make_way_there; assumption. Qed.
Lemma way_new dir n f : ordinary (dir ++ [n]) -> whole [] dir f -> fs_get (dir ++ [n]) f = None \/ fs_get (dir ++ [n]) f = Some EDir ->
  make_way [] (dir ++ [n]) f = (None, match fs_get (dir ++ [n]) f with None => fs_set (dir ++ [n]) EDir f | _ => f end).
Proof.
  intros O W H. apply ordinary_app in O as [O ON]. rewrite way_step by assumption. cbn [make_way]. apply ordinary_cons in ON as [[N L] _].
  rewrite not_dotdot, not_long by assumption. destruct H as [H|H]; rewrite H; reflexivity.
Qed.
Lemma locate_long dir n x f : ordinary (dir ++ [n]) -> whole [] (dir ++ [n]) f -> (255 < octets x)%N -> locate [] (dir ++ [n; x]) f = inr TooLong.
Proof.
  intros O W L. change [n; x] with ([n] ++ [x]). rewrite app_assoc, locate_there by assumption. cbn [app locate].
  pose proof (W (dir ++ [n]) [] (eq_sym (app_nil_r _))) as D. cbn [app] in D. rewrite D. cbn [negb].
  rewrite long_not_dd, long_yes by lia. reflexivity.
Qed.
Lemma locate_short dir n x f : ordinary (dir ++ [n]) -> whole [] (dir ++ [n]) f -> ordinary [x] -> locate [] (dir ++ [n; x]) f = inl (dir ++ [n; x]).
Proof.
  intros O W OX. change [n; x] with ([n] ++ [x]). rewrite app_assoc, locate_there by assumption. cbn [app locate].
  pose proof (W (dir ++ [n]) [] (eq_sym (app_nil_r _))) as D. cbn [app] in D. rewrite D. cbn [negb].
  destruct (OX x (or_introl eq_refl)) as [N L]. rewrite not_dotdot, not_long by assumption. reflexivity.
Qed.
Lemma whole_snoc dir n f : whole [] dir f -> fs_get (dir ++ [n]) f = Some EDir -> whole [] (dir ++ [n]) f.
Proof.
  intros W H q r E. cbn [app]. destruct r as [|c r] using rev_ind.
  - rewrite app_nil_r in E. subst q. unfold fs_is_dir. destruct (dir ++ [n]) eqn:X; [reflexivity|]. rewrite H. reflexivity.
  - rewrite app_assoc in E. apply app_inj_tail in E as [E _]. exact (W q r E).
Qed.
Lemma set_dir_whole dir n f : whole [] dir f -> fs_get (dir ++ [n]) f = None -> whole [] (dir ++ [n]) (fs_set (dir ++ [n]) EDir f).
Proof.
  intros W H. apply whole_snoc; [|apply fs_get_set_same]. intros q r E. cbn [app]. pose proof (W q r E) as X. cbn [app] in X.
  unfold fs_is_dir in *. destruct q as [|y q]; [reflexivity|]. rewrite fs_get_set. destruct (path_eqb (y :: q) (dir ++ [n])); [reflexivity|exact X].
Qed.
Section Long.
  Context (dir : path) (n : pystr) (w : world) (P : plain n) (O : ordinary dir) (NN : no_nul dir) (T : dir_there dir w)
          (F : entry_at (dir ++ [n]) w = None).
  Lemma nul : has_nul (joinpath dir n) = false.
  Proof. rewrite joinpath_plain by exact P. apply has_nul_false; assumption. Qed.
  Theorem very_long : (255 < octets n)%N -> os_run (get_new_gdbms_file_paths n dir) w = (Err OSError, w).
  Proof.
    intros L. apply os_new_error; [|reflexivity]. rewrite os_run_bind. unfold create_new_database.
    rewrite (os_create_refused dir n _ _ w (w_fs w) OSError nul); [rewrite world_eta; reflexivity|].
    rewrite joinpath_plain by exact P. rewrite way_step by (try apply there_whole; assumption). cbn [make_way]. rewrite long_not_dd, long_yes by lia. reflexivity.
  Qed.
  Lemma n_ordinary : (octets n <= 255)%N -> ordinary (dir ++ [n]).
  Proof. intros L. apply ordinary_app. split; [exact O|]. intros c [<-|[]]. split; [apply P|exact L]. Qed.
  Lemma way_made : (octets n <= 255)%N -> make_way [] (joinpath dir n) (w_fs w) = (None, fs_set (dir ++ [n]) EDir (w_fs w)).
  Proof.
    intros L. rewrite joinpath_plain by exact P. unfold entry_at in F. rewrite way_new; [rewrite F; reflexivity|apply n_ordinary; exact L|apply there_whole; exact T|auto].
  Qed.
  Lemma db_long : (241 < octets n)%N -> (255 < octets (py "database_" ++ n ++ py ".json"))%N.
  Proof. intros L. rewrite !octets_app. change (octets (py "database_")) with 9%N. change (octets (py ".json")) with 5%N. lia. Qed.
  Lemma wn_long : (237 < octets n)%N -> (255 < octets (py "wiggle_number_" ++ n ++ py ".txt"))%N.
  Proof. intros L. rewrite !octets_app. change (octets (py "wiggle_number_")) with 14%N. change (octets (py ".txt")) with 4%N. lia. Qed.
  Theorem quite_long : (241 < octets n <= 255)%N ->
    exists w', os_run (get_new_gdbms_file_paths n dir) w = (Err OSError, w') /\ grown [(dir ++ [n], EDir)] w w'.
  Proof.
    intros [L1 L2]. exists (with_fs w (fs_set (dir ++ [n]) EDir (w_fs w))). split.
    - apply os_new_error; [|reflexivity]. rewrite os_run_bind. unfold create_new_database.
      destruct (files_plain dir n P) as (E1 & _). rewrite E1.
      rewrite (os_create_lost dir n _ _ w (fs_set (dir ++ [n]) EDir (w_fs w)) TooLong nul (way_made L2)); [reflexivity|].
      apply locate_long; [apply n_ordinary; exact L2|apply set_dir_whole; [apply there_whole; exact T|exact F]|apply db_long; exact L1].
    - split; cbn [In map fst].
      + intros p e [E|[]]. injection E as <- <-. apply fs_get_set_same.
      + intros p N. apply fs_get_set_other. intros ->. tauto.
  Qed.
  Theorem rather_long : (237 < octets n <= 241)%N -> entry_at (database_fp (graph_at dir n)) w = None -> entry_at (indexes_fp (graph_at dir n)) w = None ->
    exists w', os_run (get_new_gdbms_file_paths n dir) w = (Err OSError, w') /\
      grown [(dir ++ [n], EDir); (database_fp (graph_at dir n), EFile (dump_text Compact (VDict [])));
             (indexes_fp (graph_at dir n), EFile (dump_text Compact new_index))] w w'.
  Proof.
    intros [L1 L2] H1 H2. assert (L3 : (octets n <= 255)%N) by lia.
    destruct (files_plain dir n P) as (E1 & E2 & E3). cbn [graph_at database_fp indexes_fp] in *.
    set (x1 := py "database_" ++ n ++ py ".json") in *. set (x2 := py "indexes_" ++ n ++ py ".json") in *. set (x3 := py "wiggle_number_" ++ n ++ py ".txt") in *.
    set (tD := dump_text Compact (VDict [])). set (tI := dump_text Compact new_index).
    set (f1 := fs_set (dir ++ [n]) EDir (w_fs w)). set (w0 := with_fs w f1).
    assert (O' : ordinary (dir ++ [n])) by (apply n_ordinary; exact L3).
    assert (D0 : whole [] (dir ++ [n]) f1) by (apply set_dir_whole; [apply there_whole; exact T|exact F]).
    assert (NF : forall x, dir ++ [n; x] <> dir ++ [n]) by (intros x E; apply app_inv_head in E; discriminate).
    assert (G1 : fs_get (dir ++ [n; x1]) f1 = None) by (unfold f1; rewrite fs_get_set_other by apply NF; exact H1).
    assert (G2 : fs_get (dir ++ [n; x2]) f1 = None) by (unfold f1; rewrite fs_get_set_other by apply NF; exact H2).
    assert (PD : forall x f, whole [] (dir ++ [n]) f -> fs_is_dir (parent (dir ++ [n; x])) f = true).
    { intros x f W. rewrite parent_file. exact (W (dir ++ [n]) [] (eq_sym (app_nil_r _))). }
    assert (N12 : dir ++ [n; x2] <> dir ++ [n; x1]) by (intros E; apply app_inv_head in E; unfold x1, x2 in E; discriminate).
    assert (R1 : os_run (create_file dir n (dir ++ [n; x1]) tD) w = (Ok (dir ++ [n; x1]), put (dir ++ [n; x1]) tD w0)).
    { apply os_create_new; [exact nul|apply way_made; exact L3|apply locate_short; try assumption; apply db_name_ordinary; lia|exact G1|apply PD; exact D0]. }
    set (w1 := put (dir ++ [n; x1]) tD w0) in *.
    assert (D1 : whole [] (dir ++ [n]) (w_fs w1)) by (intros q r E; unfold w1; cbn [put with_fs w_fs]; rewrite new_is_dir by exact G1; exact (D0 q r E)).
    assert (WS : forall w3, whole [] (dir ++ [n]) (w_fs w3) -> make_way [] (joinpath dir n) (w_fs w3) = (None, w_fs w3)).
    { intros w3 W3. rewrite joinpath_plain by exact P. rewrite <- (app_nil_r (dir ++ [n])). rewrite make_way_there by assumption. reflexivity. }
    assert (G2' : fs_get (dir ++ [n; x2]) (w_fs w1) = None) by (unfold w1; cbn [put with_fs w_fs]; rewrite fs_get_set_other by exact N12; exact G2).
    assert (R2 : os_run (create_file dir n (dir ++ [n; x2]) tI) w1 = (Ok (dir ++ [n; x2]), put (dir ++ [n; x2]) tI w1)).
    { rewrite (os_create_new dir n _ tI w1 (w_fs w1) (dir ++ [n; x2])); [rewrite world_eta; reflexivity|exact nul|apply WS; exact D1| |exact G2'|apply PD; exact D1].
      apply locate_short; try assumption; apply idx_name_ordinary; lia. }
    set (w2 := put (dir ++ [n; x2]) tI w1) in *.
    assert (D2 : whole [] (dir ++ [n]) (w_fs w2)) by (intros q r E; unfold w2; cbn [put with_fs w_fs]; rewrite new_is_dir by exact G2'; exact (D1 q r E)).
    assert (R3 : os_run (create_file dir n (dir ++ [n; x3]) (py "0")) w2 = (Err OSError, w2)).
    { rewrite (os_create_lost dir n _ _ w2 (w_fs w2) TooLong nul (WS w2 D2)); [rewrite world_eta; reflexivity|]. apply locate_long; try assumption. apply wn_long; exact L1. }
    exists w2. split.
    - apply os_new_error; [|reflexivity]. unfold create_new_database, create_new_indexes_file, create_new_wiggle_number_file. rewrite E1, E2, E3.
      rewrite os_run_bind. fold tD tI. rewrite R1. rewrite os_run_bind, R2. rewrite os_run_bind, R3. reflexivity.
    - unfold w2, w1, w0, f1. split; cbn [In map fst].
      + intros p e [E|[E|[E|[]]]]; injection E as <- <-; unfold entry_at; cbn [put with_fs w_fs].
        * rewrite !fs_get_set_other by (intros E; symmetry in E; exact (NF _ E)). apply fs_get_set_same.
        * rewrite fs_get_set_other by (intros E; symmetry in E; exact (N12 E)). apply fs_get_set_same.
        * apply fs_get_set_same.
      + intros p N. unfold entry_at; cbn [put with_fs w_fs]. rewrite !fs_get_set_other by (intros ->; tauto). reflexivity.
  Qed.
End Long.

(** ** a name with a slash *)
Lemma slashed_parts dir a b : plain a -> plain b ->
  joinpath dir (slashed a b) = dir ++ [a; b] /\
  db_file dir (slashed a b) = dir ++ [a; b; py "database_" ++ a; b ++ py ".json"].
Proof.
  intros PA PB. destruct (plain_head a PA) as (c & s & E & Hc).
  assert (J : forall t, joinpath dir (a ++ t) = dir ++ path_parts (a ++ t)) by (intros t; unfold joinpath; rewrite E; cbn [app]; rewrite (proj2 (N.eqb_neq c 47) Hc); reflexivity).
  assert (K : forall pre x post, pre <> [] \/ post <> [] -> plain x -> kept_part (pre ++ x ++ post) = true).
  { intros pre x post H PX. destruct (plain_head x PX) as (cx & sx & EX & _). unfold kept_part. apply andb_true_intro.
    split; apply negb_true_iff; apply not_true_iff_false; rewrite str_eqb_eq; intros X; apply (f_equal (@List.length N)) in X;
      rewrite !app_length in X; rewrite EX in X; cbn [List.length py map list_ascii_of_string] in X; [lia|].
    destruct H as [H|H]; [destruct pre; [congruence|]|destruct post; [congruence|]]; cbn [List.length] in X; lia. }
  split.
  - unfold slashed. rewrite J. f_equal. unfold path_parts. rewrite split_slash_app by apply PA. rewrite split_no_slash by apply PB.
    cbn [rev app List.filter]. rewrite !kept_plain by assumption. reflexivity.
  - unfold db_file, slashed. rewrite <- app_assoc. rewrite J. f_equal. unfold path_parts. cbn [app]. rewrite split_slash_app by apply PA.
    change (py "/database_") with (47%N :: py "database_").
    cbn [app]. rewrite split_slash_app by apply PB. rewrite !app_assoc, <- (app_assoc _ _ (py ".json")). cbn [app].
    change (split_slash ((py "database_" ++ a) ++ 47%N :: b ++ py ".json") []) with (split_slash ((py "database_" ++ a) ++ 47%N :: b ++ py ".json") []).
    rewrite split_slash_app by (apply no_slash_app; [apply no_slash_lit; reflexivity|apply PA]).
    rewrite split_no_slash by (apply no_slash_app; [apply PB|apply no_slash_lit; reflexivity]).
    cbn [rev List.filter]. cbn [app].
    assert (K1 : kept_part (py "database_" ++ a) = true) by (rewrite <- (app_nil_r a); apply K; [left; discriminate|exact PA]).
    assert (K2 : kept_part (b ++ py ".json") = true) by (apply (K [] b (py ".json")); [right; discriminate|exact PB]).
    change ([] ++ py "database_" ++ a) with (py "database_" ++ a).
    rewrite !kept_plain by assumption. rewrite K1, K2. reflexivity.
Qed.
Theorem slash_fails dir a b w : plain a -> plain b -> (octets a <= 246)%N -> (octets b <= 255)%N ->
  ordinary dir -> no_nul dir -> disk w -> dir_there dir w -> entry_at (dir ++ [a]) w = None ->
  exists w', os_run (get_new_gdbms_file_paths (slashed a b) dir) w = (Err FileNotFoundError, w') /\
    grown [(dir ++ [a], EDir); (dir ++ [a; b], EDir)] w w'.
Proof.
  intros PA PB LA LB O NN D T F. destruct (slashed_parts dir a b PA PB) as [EJ ED].
  assert (OA : ordinary [a]) by (intros c [<-|[]]; split; [apply PA|lia]). assert (OB : ordinary [b]) by (intros c [<-|[]]; split; [apply PB|lia]).
  assert (BELOW : forall q, entry_at ((dir ++ [a]) ++ q) w = None).
  { intros q. destruct q as [|c q]; [rewrite app_nil_r; exact F|]. destruct (entry_at ((dir ++ [a]) ++ c :: q) w) as [e|] eqn:E; [|reflexivity].
    rewrite (disk_tree w D _ (dir ++ [a]) _ E) in F; [discriminate| |].
    - split; [destruct dir; discriminate|exists (c :: q); reflexivity].
    - intros X. apply (f_equal (@List.length pystr)) in X. rewrite !app_length in X. cbn [List.length] in X. lia. }
  set (f1 := fs_set (dir ++ [a]) EDir (w_fs w)). set (f2 := fs_set (dir ++ [a; b]) EDir f1).
  assert (W1 : whole [] (dir ++ [a]) f1) by (apply set_dir_whole; [apply there_whole; exact T|exact F]).
  assert (AB : dir ++ [a; b] = (dir ++ [a]) ++ [b]) by (rewrite <- app_assoc; reflexivity).
  assert (G2 : fs_get ((dir ++ [a]) ++ [b]) f1 = None).
  { unfold f1. rewrite fs_get_set_other; [exact (BELOW [b])|]. intros X. apply (f_equal (@List.length pystr)) in X. rewrite !app_length in X. cbn [List.length] in X. lia. }
  assert (W2 : whole [] ((dir ++ [a]) ++ [b]) f2) by (unfold f2; rewrite AB; apply set_dir_whole; assumption).
  assert (MW : make_way [] (joinpath dir (slashed a b)) (w_fs w) = (None, f2)).
  { rewrite EJ. rewrite make_way_there by (try apply there_whole; assumption). cbn [app make_way].
    destruct (OA a (or_introl eq_refl)) as [N1 L1]. destruct (OB b (or_introl eq_refl)) as [N2 L2]. rewrite !not_dotdot, !not_long by assumption.
    unfold entry_at in F. rewrite F. fold f1. rewrite G2. unfold f2. rewrite AB. reflexivity. }
  assert (NU : has_nul (joinpath dir (slashed a b)) = false).
  { rewrite EJ, AB, has_nul_app, (has_nul_false dir a NN PA). exact (has_nul_false [] b (Forall_nil _) PB). }
  assert (LO : locate [] (db_file dir (slashed a b)) f2 = inr Missing).
  { assert (EP : dir ++ [a; b; py "database_" ++ a; b ++ py ".json"] = ((dir ++ [a]) ++ [b]) ++ [py "database_" ++ a; b ++ py ".json"]) by (rewrite <- !app_assoc; reflexivity).
    assert (OP : ordinary ((dir ++ [a]) ++ [b])) by (apply ordinary_app; split; [apply ordinary_app; auto|exact OB]).
    rewrite ED, EP, locate_there by assumption.
    change ([] ++ (dir ++ [a]) ++ [b]) with ((dir ++ [a]) ++ [b]).
    cbn [locate]. pose proof (W2 ((dir ++ [a]) ++ [b]) [] (eq_sym (app_nil_r _))) as DD. change ([] ++ (dir ++ [a]) ++ [b]) with ((dir ++ [a]) ++ [b]) in DD. rewrite DD. cbn [negb].
    assert (LX : octets (py "database_" ++ a) = (9 + octets a)%N) by (rewrite octets_app; reflexivity).
    rewrite long_not_dd by (rewrite LX; lia). rewrite not_long by (rewrite LX; lia).
    assert (GN : fs_get (((dir ++ [a]) ++ [b]) ++ [py "database_" ++ a]) f2 = None).
    { unfold f2, f1. rewrite AB.
      rewrite fs_get_set_other by (intros X; apply (f_equal (@List.length pystr)) in X; rewrite !app_length in X; cbn [List.length] in X; lia).
      rewrite fs_get_set_other by (intros X; apply (f_equal (@List.length pystr)) in X; rewrite !app_length in X; cbn [List.length] in X; lia).
      rewrite <- (app_assoc (dir ++ [a])). exact (BELOW _). }
    assert (ND : fs_is_dir (((dir ++ [a]) ++ [b]) ++ [py "database_" ++ a]) f2 = false).
    { unfold fs_is_dir. rewrite GN. destruct (((dir ++ [a]) ++ [b]) ++ [py "database_" ++ a]) eqn:X; [|reflexivity]. apply app_eq_nil in X as [_ X]. discriminate. }
    match goal with |- context [fs_is_dir ?x f2] =>
      assert (NDx : fs_is_dir x f2 = false) by exact ND;
      assert (GNx : fs_get x f2 = None) by exact GN end.
    rewrite NDx. cbn [negb]. rewrite GNx. reflexivity. }
  exists (with_fs w f2). split.
  - apply os_new_error; [|reflexivity]. rewrite os_run_bind. unfold create_new_database. rewrite (os_create_lost dir _ _ _ w f2 Missing NU MW LO). reflexivity.
  - unfold f2, f1. split; cbn [In map fst].
    + intros p e [E|[E|[]]]; injection E as <- <-; unfold entry_at; cbn [with_fs w_fs].
      * rewrite fs_get_set_other by (rewrite AB; intros X; apply (f_equal (@List.length pystr)) in X; rewrite !app_length in X; cbn [List.length] in X; lia). apply fs_get_set_same.
      * apply fs_get_set_same.
    + intros p N. unfold entry_at; cbn [with_fs w_fs]. rewrite !fs_get_set_other by (intros ->; tauto). reflexivity.
Qed.

(** ** an error other than ValueError ends the program *)
Theorem error_ends {rt : PyRt} f dir c n r w e w' : w_in w = c :: n :: r -> c <> py "y" -> c <> py "yes" ->
  os_run (get_new_gdbms_file_paths n dir) {| w_fs := w_fs w; w_in := r; w_out := w_out w ++ [py "**********************"; py "Welcome to WiggleGraph"; py "**********************" ++ [10%N]] |} = (Err e, w') ->
  is_value_error e = false -> os_run (start_wiggle_shell (S f) dir) w = (Err e, w').
Proof.
  intros W N1 N2 R E. unfold start_wiggle_shell. rewrite os_run_bind, (fine_run _ _ (fine_print_all _ w)), print_all_run. cbv beta iota.
  rewrite os_run_bind. unfold select_gdbms. rewrite os_run_bind, (fine_run (do_text CInput) _ (fine_text CInput _ I)), input_run. cbn [w_in w_fs w_out]. rewrite W.
  assert (NY : str_eqb c (py "y") || str_eqb c (py "yes") = false) by (apply not_true_iff_false; rewrite orb_true_iff, !str_eqb_eq; tauto).
  cbv beta iota. rewrite NY. cbn [create_new_dbms]. rewrite os_run_bind, (fine_run (do_text CInput) _ (fine_text CInput _ I)), input_run. cbn [w_in w_fs w_out].
  rewrite os_run_bind, os_run_catch, os_run_bind, R, E. reflexivity.
Qed.

(** ** whatever the name, what was there is kept *)
Lemma make_way_kept p : forall d f e f', make_way d p f = (e, f') -> forall q x, fs_get q f = Some x -> fs_get q f' = Some x.
Proof.
  induction p as [|c p IH]; intros d f e f' E q x H; cbn [make_way] in E; [congruence|].
  destruct (str_eqb c dotdot); [eapply IH; eassumption|]. destruct (too_long c); [congruence|].
  destruct (fs_get (d ++ [c]) f) as [[|t]|] eqn:G; [eapply IH; eassumption|congruence|].
  eapply IH; [exact E|]. rewrite fs_get_set_other; [exact H|]. congruence.
Qed.
Lemma os_create_kept dir n file content w : kept w (snd (os_run (create_file dir n file content) w)).
Proof.
  unfold create_file. rewrite os_run_bind. unfold mkdir. destruct (has_nul (joinpath dir n)); [apply kept_refl|]. cbn [do_unit os_run os_exec].
  destruct (make_way [] (joinpath dir n) (w_fs w)) as [e f1] eqn:MW.
  assert (K1 : kept w (with_fs w f1)) by (intros q x H; exact (make_way_kept _ _ _ _ _ MW q x H)).
  destruct e as [e|]; [exact K1|]. cbn [os_run]. eapply kept_trans; [exact K1|]. clear K1 MW.
  rewrite os_run_bind. cbn [do_bool os_run os_exec path_of at_path]. change (w_fs (with_fs w f1)) with f1.
  destruct (locate [] file f1) as [q|t] eqn:L.
  2:{ destruct t; cbn [refusal os_run snd]; try apply kept_refl;
      rewrite os_run_bind; cbn [do_unit os_run os_exec path_of at_path]; change (w_fs (with_fs w f1)) with f1; rewrite L; apply kept_refl. }
  cbn [exec]. unfold fs_is_file. change (w_fs (with_fs w f1)) with f1. set (w1 := with_fs w f1).
  destruct (fs_get q f1) as [[|t]|] eqn:G; cbn [os_run snd]; [|apply kept_refl|].
  - assert (X2 : os_exec (CTouch file) w1 = (RUnit, w1)).
    { cbn [os_exec path_of at_path]. change (w_fs w1) with f1. rewrite L. cbn [exec]. change (w_fs w1) with f1. rewrite G. reflexivity. }
    assert (X3 : os_exec (CCreate file) w1 = (RErr OSError, w1)).
    { cbn [os_exec path_of at_path]. change (w_fs w1) with f1. rewrite L. cbn [exec]. change (w_fs w1) with f1. rewrite G. reflexivity. }
    rewrite os_run_bind. cbn [do_unit os_run]. rewrite X2. cbn [os_run]. rewrite os_run_bind. cbn [do_unit os_run]. rewrite X3. apply kept_refl.
  - destruct (fs_is_dir (parent q) f1) eqn:DP.
    + assert (R : forall A (k : unit -> io A), True) by auto. clear R.
      assert (D : forall t x, fs_is_dir x (w_fs (put q t w1)) = fs_is_dir x f1) by (intros t x; apply new_is_dir; exact G).
      assert (LP : forall t, locate [] file (w_fs (put q t w1)) = inl q) by (intros t; eapply locate_same; [apply D|exact L]).
      assert (X2 : os_exec (CTouch file) w1 = (RUnit, put q [] w1)).
      { cbn [os_exec path_of at_path]. change (w_fs w1) with f1. rewrite L. cbn [exec]. change (w_fs w1) with f1. rewrite G, DP. reflexivity. }
      assert (P0 : fs_get q (w_fs (put q [] w1)) = Some (EFile [])) by apply get_put_same.
      assert (X3 : os_exec (CCreate file) (put q [] w1) = (RUnit, put q [] w1)).
      { cbn [os_exec path_of at_path]. rewrite LP. cbn [exec]. rewrite P0. f_equal. fold (put q [] (put q [] w1)). apply put_put. }
      assert (X4 : os_exec (CWrite file 0 content) (put q [] w1) = (RUnit, put q content w1)).
      { cbn [os_exec path_of at_path]. rewrite LP. cbn [exec]. rewrite P0. f_equal. change (put q (write_at [] 0 content) (put q [] w1) = put q content w1).
        rewrite put_put, write_at_0, skipn_nil, app_nil_r. reflexivity. }
      rewrite os_run_bind. cbn [do_unit os_run]. rewrite X2. cbn [os_run]. rewrite os_run_bind. cbn [do_unit os_run]. rewrite X3. cbn [os_run].
      rewrite os_run_bind. cbn [do_unit os_run]. rewrite X4. cbn [os_run snd].
      intros p e H. unfold entry_at in *. cbn [put with_fs w_fs]. rewrite fs_get_set_other; [exact H|]. intros ->. change (w_fs w1) with f1 in H. congruence.
    + assert (X2 : os_exec (CTouch file) w1 = (RErr FileNotFoundError, w1)).
      { cbn [os_exec path_of at_path]. change (w_fs w1) with f1. rewrite L. cbn [exec]. change (w_fs w1) with f1. rewrite G, DP. reflexivity. }
      rewrite os_run_bind. cbn [do_unit os_run]. rewrite X2. apply kept_refl.
Qed.
Definition keeps {A} (m : io A) : Prop := forall w, kept w (snd (os_run m w)).
Lemma keeps_ret {A} (a : A) : keeps (Ret a).
Proof. intros w. apply kept_refl. Qed.
Lemma keeps_throw {A} e : keeps (@Throw A e).
Proof. intros w. apply kept_refl. Qed.
Lemma keeps_bind {A B} (m : io A) (f : A -> io B) : keeps m -> (forall a, keeps (f a)) -> keeps (io_bind m f).
Proof.
  intros M F w. rewrite os_run_bind. specialize (M w). destruct (os_run m w) as [[a|e] w']; [|exact M]. eapply kept_trans; [exact M|apply F].
Qed.
Lemma keeps_catch {A} (m : io A) h : keeps m -> (forall e m', h e = Some m' -> keeps m') -> keeps (io_catch m h).
Proof.
  intros M F w. rewrite os_run_catch. specialize (M w). destruct (os_run m w) as [[a|e] w']; [exact M|]. destruct (h e) as [m'|] eqn:E; [|exact M].
  eapply kept_trans; [exact M|eapply F; exact E].
Qed.
Definition gentle (c : cmd) : Prop := match c with CRead _ | CIsFile _ | CIsDir _ | CList _ | CPrint _ | CInput => True | _ => False end.
Lemma gentle_disk c w : gentle c -> w_fs (snd (os_exec c w)) = w_fs w.
Proof.
  destruct c; cbn [gentle]; intros G; try contradiction; cbn [os_exec path_of at_path].
  - destruct (locate [] p (w_fs w)); [|reflexivity]. cbn [exec]. destruct (fs_get p0 (w_fs w)) as [[|]|]; reflexivity.
  - destruct (locate [] p (w_fs w)); reflexivity.
  - destruct (locate [] p (w_fs w)); reflexivity.
  - destruct (locate [] p (w_fs w)); [|reflexivity]. cbn [exec]. destruct (fs_is_dir p0 (w_fs w)); [reflexivity|]. destruct (fs_get p0 (w_fs w)); reflexivity.
  - reflexivity.
  - cbn [exec]. destruct (w_in w); reflexivity.
Qed.
Lemma gentle_kept c w : gentle c -> kept w (snd (os_exec c w)).
Proof. intros G p e H. unfold entry_at in *. rewrite gentle_disk by exact G. exact H. Qed.
Lemma keeps_unit c : gentle c -> keeps (do_unit c).
Proof. intros G w. pose proof (gentle_kept c w G) as K. cbn [do_unit os_run]. destruct (os_exec c w) as [r w']. destruct r; exact K. Qed.
Lemma keeps_bool c : gentle c -> keeps (do_bool c).
Proof. intros G w. pose proof (gentle_kept c w G) as K. cbn [do_bool os_run]. destruct (os_exec c w) as [r w']. destruct r; exact K. Qed.
Lemma keeps_text c : gentle c -> keeps (do_text c).
Proof. intros G w. pose proof (gentle_kept c w G) as K. cbn [do_text os_run]. destruct (os_exec c w) as [r w']. destruct r; exact K. Qed.
Lemma keeps_names c : gentle c -> keeps (do_names c).
Proof. intros G w. pose proof (gentle_kept c w G) as K. cbn [do_names os_run]. destruct (os_exec c w) as [r w']. destruct r; exact K. Qed.
Theorem new_keeps n dir : keeps (get_new_gdbms_file_paths n dir).
Proof.
  unfold get_new_gdbms_file_paths. apply keeps_catch.
  - apply keeps_bind; [intros w; apply os_create_kept|]. intros a. apply keeps_bind; [intros w; apply os_create_kept|]. intros b. apply keeps_bind; [intros w; apply os_create_kept|].
    intros c. apply keeps_bind; [apply keeps_unit; exact I|]. intros; apply keeps_ret.
  - intros e m' H. destruct (is_value_error e); [|discriminate]. apply some_inv in H. subst m'. apply keeps_bind; [apply keeps_unit; exact I|]. intros; apply keeps_throw.
Qed.
Lemma create_keeps fuel dir : keeps (create_new_dbms fuel dir).
Proof.
  induction fuel as [|fuel IH]; [apply keeps_throw|]. cbn [create_new_dbms]. apply keeps_bind; [apply keeps_text; exact I|]. intros n. apply keeps_bind.
  - apply keeps_catch; [apply keeps_bind; [apply new_keeps|intros; apply keeps_ret]|]. intros e m' H. destruct (is_value_error e); [|discriminate].
    apply some_inv in H. subst m'. apply keeps_bind; [apply keeps_unit; exact I|]. intros; apply keeps_ret.
  - intros [g|]; [apply keeps_ret|exact IH].
Qed.
Lemma keeps_print_all l : keeps (print_all l).
Proof. induction l as [|t l IH]; [apply keeps_ret|]. cbn [print_all]. apply keeps_bind; [apply keeps_unit; exact I|]. intros; exact IH. Qed.
Lemma display_keeps dir : keeps (get_and_display_available_dbms dir).
Proof.
  unfold get_and_display_available_dbms. apply keeps_bind.
  - unfold list_existing_dbms. apply keeps_bind; [apply keeps_names; exact I|]. intros l. apply keeps_bind; [|intros; apply keeps_ret].
    induction l as [|x l IH]; [apply keeps_ret|]. cbn [filter_io]. apply keeps_bind.
    + apply keeps_bind; [apply keeps_bool; exact I|intros; apply keeps_ret].
    + intros b. apply keeps_bind; [exact IH|intros; apply keeps_ret].
  - intros [|x l]; [apply keeps_ret|]. cbv zeta. apply keeps_bind; [apply keeps_unit; exact I|]. intros _. apply keeps_bind; [apply keeps_print_all|].
    intros _. apply keeps_bind; [apply keeps_unit; exact I|]. intros; apply keeps_ret.
Qed.
Lemma existing_file_keeps f : keeps (existing_file f).
Proof. unfold existing_file. apply keeps_bind; [apply keeps_bool; exact I|]. intros []; [apply keeps_ret|apply keeps_throw]. Qed.
Lemma existing_keeps fuel : forall folder dir, keeps (get_existing_gdbms fuel folder dir).
Proof.
  induction fuel as [|fuel IH]; intros folder dir; [apply keeps_throw|]. cbn [get_existing_gdbms]. apply keeps_bind; [apply display_keeps|]. intros c.
  assert (NO : keeps (let! _ := do_unit (CPrint (py "There are no databases, please create a new database.")) in create_new_dbms fuel dir))
    by (apply keeps_bind; [apply keeps_unit; exact I|intros; apply create_keeps]).
  destruct c as [[|kv d]|]; [exact NO| |exact NO]. apply keeps_bind; [apply keeps_text; exact I|]. intros s. destruct (d_get s (kv :: d)) as [n|].
  - apply keeps_bind.
    + apply keeps_catch; [repeat (apply keeps_bind; [apply existing_file_keeps|intros]); apply keeps_ret|].
      intros e m' H. destruct e; try discriminate. apply some_inv in H. subst m'. apply keeps_bind; [apply keeps_unit; exact I|]. intros; apply keeps_ret.
    + intros [g|]; [apply keeps_ret|apply IH].
  - apply keeps_bind; [apply keeps_unit; exact I|]. intros; apply IH.
Qed.
Theorem select_keeps fuel folder : keeps (select_gdbms fuel folder).
Proof.
  unfold select_gdbms. apply keeps_bind; [apply keeps_text; exact I|]. intros c. destruct (_ || _); [apply existing_keeps|apply create_keeps].
Qed.

(** ** deleting a graph under an ordinary name *)
Lemma unlink_dirs p w x : fs_is_dir x (w_fs (snd (exec (CUnlink p) w))) = fs_is_dir x (w_fs w).
Proof.
  cbn [exec]. destruct (fs_get p (w_fs w)) as [[|t]|] eqn:G; cbn [snd with_fs w_fs]; try reflexivity.
  unfold fs_is_dir. destruct x as [|c x]; [reflexivity|]. rewrite fs_get_del.
  destruct (path_eqb (c :: x) p) eqn:E; [|reflexivity]. apply path_eqb_eq in E. rewrite E, G. reflexivity.
Qed.
Lemma fine_remove l : forall w, (forall p, In p l -> ordinary p /\ dirs_to [] p (w_fs w)) -> fine (remove_all l) w.
Proof.
  induction l as [|p l IH]; intros w H; [exact I|]. cbn [remove_all]. apply fine_bind; [apply fine_unit, H; left; reflexivity|].
  intros a w1 R. apply IH. intros q Q. destruct (H q (or_intror Q)) as [A B]. split; [exact A|].
  assert (E : w1 = snd (exec (CUnlink p) w)) by (unfold do_unit in R; cbn [run] in R; destruct (exec (CUnlink p) w) as [[] x]; cbn [run snd] in *; congruence).
  rewrite E. intros q1 r1 E1 N1. cbn [app]. rewrite unlink_dirs. exact (B q1 r1 E1 N1).
Qed.
Lemma remove_dirs l : forall w x, fs_is_dir x (w_fs (snd (run (remove_all l) w))) = fs_is_dir x (w_fs w).
Proof.
  induction l as [|p l IH]; intros w x; [reflexivity|]. cbn [remove_all]. rewrite run_bind. unfold do_unit. cbn [run]. pose proof (unlink_dirs p w x) as U.
  destruct (exec (CUnlink p) w) as [[] y]; cbn [run snd] in *; try exact U; rewrite IH; exact U.
Qed.
Lemma fine_glob_dirs p : forall pre w, Forall no_wildcard p -> fine (glob_dirs false [pre] p) w.
Proof.
  induction p as [|c p IH]; intros pre w H; cbn [glob_dirs]; [exact I|]. inversion H; subst.
  assert (HM : has_magic c = false).
  { unfold has_magic. apply not_true_iff_false. rewrite existsb_exists. intros (y & Y & E). rewrite !orb_true_iff, !N.eqb_eq in E.
    match goal with X : no_wildcard c |- _ => destruct (X y Y) as (A & B & C) end. tauto. }
  rewrite HM. cbn [map]. apply IH. assumption.
Qed.
Theorem delete_same n dir w : plain n -> disk w -> names_allowed w -> Forall no_wildcard (dir ++ [n]) -> entry_at (dir ++ [n]) w = Some EDir ->
  os_run (delete_gdbms n dir) w = run (delete_gdbms n dir) w.
Proof.
  intros P D N NW HD. apply fine_run. unfold delete_gdbms. rewrite joinpath_slash by exact P. set (d := dir ++ [n]) in *.
  assert (O : ordinary d) by (eapply N; exact HD).
  assert (T : dir_there d w).
  { intros x X. destruct (list_eq_dec (list_eq_dec N.eq_dec) x d) as [->|E]; [exact HD|]. exact (disk_tree w D d x EDir HD X E). }
  assert (TO : dirs_to [] d (w_fs w)) by (intros q r E _; exact (there_dirs d w T q r E)).
  apply fine_bind; [apply fine_bool; split; assumption|]. intros b w1 R1. cbn [do_bool run exec] in R1. rewrite (proj2 (fs_is_dir_spec d w) (or_intror HD)) in R1. cbn [run] in R1.
  assert (b = true /\ w = w1) as [-> <-] by (split; congruence). cbn [negb].
  apply fine_bind.
  { unfold glob_star. apply fine_bind; [apply fine_glob_dirs; exact NW|]. intros ds w2 R2. rewrite glob_dirs_plain in R2 by exact NW. cbn [app] in R2.
    assert (ds = [d] /\ w = w2) as [-> <-] by (split; congruence). cbn [concat_io]. apply fine_bind; [|intros a2 w3 _; exact I].
    unfold glob1. apply fine_bind; [|intros; exact I]. unfold list_or_empty. apply fine_catch; [apply fine_names; split; assumption|].
    intros e m' w' _ X. apply some_inv in X. subst m'. exact I. }
  intros files w2 R2.
  assert (F2 : w2 = w /\ forall p, In p files -> exists m, In m (children d (w_fs w)) /\ p = d ++ [m]).
  { unfold glob_star in R2. rewrite run_bind, glob_dirs_plain in R2 by exact NW. cbn [app concat_io] in R2. rewrite run_bind in R2. unfold glob1 in R2.
    rewrite run_bind in R2. unfold list_or_empty in R2. rewrite run_catch in R2. cbn [do_names run exec] in R2.
    rewrite (proj2 (fs_is_dir_spec d w) (or_intror HD)) in R2. cbn [run] in R2. rewrite run_bind in R2. cbn [run] in R2.
    injection R2 as <- <-. split; [reflexivity|]. intros p I. rewrite app_nil_r in I.
    apply in_map_iff in I as (m & <- & I). apply filter_In in I as [I _]. eauto. }
  destruct F2 as [-> F2].
  apply fine_bind.
  { apply fine_remove. intros p I. destruct (F2 p I) as (m & M & ->). apply children_spec in M as (e & M); [|apply D]. split; [eapply N; exact M|].
    apply snoc_dirs. exact (there_dirs d w T). }
  intros a3 w3 R3. apply fine_bind; [|intros; exact I]. apply fine_unit. split; [exact O|]. intros q r E Nr. cbn [app].
  pose proof (remove_dirs files w q) as RD. rewrite R3 in RD. cbn [snd] in RD. rewrite RD. exact (there_dirs d w T q r E).
Qed.

(** ** in the words of the statements *)
Lemma way_dirs p w : way_there p w -> dirs_to [] p (w_fs w).
Proof.
  intros W q r E N. cbn [app]. apply fs_is_dir_spec. destruct q as [|c q]; [left; reflexivity|right]. apply W.
  - split; [discriminate|]. exists r. exact E.
  - intros X. rewrite E in X. rewrite <- (app_nil_r (c :: q)) in X at 1. apply app_inv_head in X. congruence.
Qed.
Lemma ways_of ps w : (forall p, In p ps -> ordinary p /\ way_there p w) -> ways ps w.
Proof. intros H p I. destruct (H p I) as [A B]. split; [exact A|apply way_dirs; exact B]. Qed.
Theorem query_same {rt : PyRt} q g w : (forall p, In p (files_of g) -> ordinary p /\ way_there p w) -> os_run (query q g) w = run (query q g) w.
Proof. intros H. apply (only_same _ _ (only_query q g)). apply ways_of. exact H. Qed.
Theorem query_crash_same {rt : PyRt} q g w w' : (forall p, In p (files_of g) -> ordinary p /\ way_there p w) -> os_crash (query q g) w w' <-> crash (query q g) w w'.
Proof. intros H. apply (only_crash_same _ _ (only_query q g)). apply ways_of. exact H. Qed.
Theorem shell_same {rt : PyRt} f g w : (forall p, In p (files_of g) -> ordinary p /\ way_there p w) -> os_run (shell_loop f g) w = run (shell_loop f g) w.
Proof. intros H. apply session_same, ways_of. exact H. Qed.
Theorem new_same n dir w : good_name n -> ordinary dir -> os_run (get_new_gdbms_file_paths n dir) w = run (get_new_gdbms_file_paths n dir) w.
Proof. intros G O. apply fine_run, fine_new; assumption. Qed.

Theorem long_ends {rt : PyRt} f dir c n r w : plain n -> (237 < octets n)%N -> ordinary dir -> no_nul dir -> dir_there dir w -> entry_at (dir ++ [n]) w = None -> disk w ->
  c <> py "y" -> c <> py "yes" -> w_in w = c :: n :: r -> exists w', os_run (start_wiggle_shell (S f) dir) w = (Err OSError, w').
Proof.
  intros P L O NN T F D N1 N2 W.
  match goal with |- exists w', os_run _ w = _ => set (w1 := {| w_fs := w_fs w; w_in := r; w_out := w_out w ++ [py "**********************"; py "Welcome to WiggleGraph"; py "**********************" ++ [10%N]] |}) end.
  assert (T1 : dir_there dir w1) by exact T. assert (F1 : entry_at (dir ++ [n]) w1 = None) by exact F.
  assert (BELOW : forall x, entry_at (dir ++ [n; x]) w1 = None).
  { intros x. change (entry_at (dir ++ [n; x]) w = None). destruct (entry_at (dir ++ [n; x]) w) as [e|] eqn:E; [|reflexivity]. exfalso.
    assert (X : entry_at (dir ++ [n]) w = Some EDir); [|congruence]. eapply (disk_tree w D _ (dir ++ [n]) e E).
    - split; [destruct dir; discriminate|]. exists [x]. rewrite <- app_assoc. reflexivity.
    - intros X. apply app_inv_head in X. discriminate. }
  assert (R : exists w', os_run (get_new_gdbms_file_paths n dir) w1 = (Err OSError, w')).
  { destruct (N.lt_ge_cases 255 (octets n)) as [L1|L1]; [exists w1; exact (very_long dir n w1 P O NN T1 L1)|].
    destruct (N.lt_ge_cases 241 (octets n)) as [L2|L2].
    - destruct (quite_long dir n w1 P O NN T1 F1 (conj L2 L1)) as (w' & R & _). eauto.
    - destruct (rather_long dir n w1 P O NN T1 F1 (conj L L2) (BELOW _) (BELOW _)) as (w' & R & _). eauto. }
  destruct R as (w' & R). exists w'. exact (error_ends f dir c n r w OSError w' W N1 N2 R eq_refl).
Qed.
Theorem slash_ends {rt : PyRt} f dir c a b r w : plain a -> plain b -> (octets a <= 246)%N -> (octets b <= 255)%N ->
  ordinary dir -> no_nul dir -> disk w -> dir_there dir w -> entry_at (dir ++ [a]) w = None ->
  c <> py "y" -> c <> py "yes" -> w_in w = c :: slashed a b :: r -> exists w', os_run (start_wiggle_shell (S f) dir) w = (Err FileNotFoundError, w') /\
    grown [(dir ++ [a], EDir); (dir ++ [a; b], EDir)] w w'.
Proof.
  intros PA PB LA LB O NN D T F N1 N2 W.
  set (w1 := {| w_fs := w_fs w; w_in := r; w_out := w_out w ++ [py "**********************"; py "Welcome to WiggleGraph"; py "**********************" ++ [10%N]] |}).
  assert (D1 : disk w1) by (destruct D as [A B C]; constructor; [exact A|exact B|exact C]).
  destruct (slash_fails dir a b w1 PA PB LA LB O NN D1 T F) as (w' & R & G). exists w'. split; [|exact G].
  exact (error_ends f dir c _ r w FileNotFoundError w' W N1 N2 R eq_refl).
Qed.

(** ** choosing a graph whose name is too long for its files *)
Lemma os_existing_long dir n x w : ordinary (dir ++ [n]) -> whole [] (dir ++ [n]) (w_fs w) -> (255 < octets x)%N -> os_run (existing_file (dir ++ [n; x])) w = (Err OSError, w).
Proof.
  intros O W L. unfold existing_file. rewrite os_run_bind. cbn [do_bool os_run os_exec path_of at_path]. rewrite locate_long by assumption. reflexivity.
Qed.
Lemma os_existing_there dir n x w t : ordinary (dir ++ [n]) -> whole [] (dir ++ [n]) (w_fs w) -> ordinary [x] -> entry_at (dir ++ [n; x]) w = Some (EFile t) ->
  os_run (existing_file (dir ++ [n; x])) w = (Ok (dir ++ [n; x]), w).
Proof.
  intros O W OX E. unfold existing_file. rewrite os_run_bind. cbn [do_bool os_run os_exec path_of at_path]. rewrite locate_short by assumption.
  cbn [exec]. unfold fs_is_file. unfold entry_at in E. rewrite E. reflexivity.
Qed.
Theorem long_choice folder w l i n r f : ordinary folder -> disk w -> dir_there folder w -> names_allowed w -> menu folder w l -> i < 26 -> nth_error l i = Some n ->
  plain n -> (237 < octets n)%N ->
  ((octets n <= 241)%N -> forall p, In p [database_fp (graph_at folder n); indexes_fp (graph_at folder n)] -> exists t, entry_at p w = Some (EFile t)) ->
  w_in w = letter i :: r ->
  os_run (get_existing_gdbms (S f) folder folder) w = (Err OSError, {| w_fs := w_fs w; w_in := r; w_out := w_out w ++ shown l |}).
Proof.
  intros O D T NA M Hi Hn P L F E. pose proof (proj1 (proj2 M n) (nth_error_In _ _ Hn)) as (ED & _).
  assert (ON : ordinary (folder ++ [n])) by exact (NA _ _ ED). set (w1 := {| w_fs := w_fs w; w_in := r; w_out := w_out w ++ shown l |}).
  assert (WH : whole [] (folder ++ [n]) (w_fs w1)) by (apply whole_snoc; [exact (there_whole folder w T)|exact ED]).
  cbn [get_existing_gdbms]. rewrite os_run_bind, (fine_run _ w (fine_display folder w O D T NA)), (display_run folder w l D (there_dir _ _ T) M).
  destruct l as [|x l]; [destruct i; discriminate|]. rewrite <- letters_eq.
  destruct (letters (x :: l)) as [|kv ml] eqn:ML; [rewrite letters_eq in ML; discriminate|]. rewrite <- ML.
  rewrite os_run_bind. cbn [do_text os_run os_exec exec say w_in]. rewrite E. cbn [os_run]. fold w1.
  rewrite (proj2 (menu_get (x :: l) (letter i) n)) by eauto. destruct (files_plain folder n P) as (E1 & E2 & E3). rewrite E1, E2, E3.
  rewrite os_run_bind, os_run_catch. change (w_fs (say (shown (x :: l)) w)) with (w_fs w).
  destruct (N.lt_ge_cases 241 (octets n)) as [L1|L1].
  - rewrite os_run_bind, os_existing_long by (try apply db_long; assumption). reflexivity.
  - specialize (F L1). destruct (F _ (or_introl eq_refl)) as (t1 & F1). destruct (F _ (or_intror (or_introl eq_refl))) as (t2 & F2).
    rewrite os_run_bind, (os_existing_there folder n _ _ t1) by (try apply db_name_ordinary; assumption).
    rewrite os_run_bind, (os_existing_there folder n _ _ t2) by (try (apply idx_name_ordinary; lia); assumption).
    rewrite os_run_bind, os_existing_long by (try apply wn_long; assumption). reflexivity.
Qed.
Theorem long_chosen {rt : PyRt} folder w l i n c r f : ordinary folder -> disk w -> dir_there folder w -> names_allowed w -> menu folder w l -> i < 26 -> nth_error l i = Some n ->
  plain n -> (237 < octets n)%N ->
  ((octets n <= 241)%N -> forall p, In p [database_fp (graph_at folder n); indexes_fp (graph_at folder n)] -> exists t, entry_at p w = Some (EFile t)) ->
  c = py "y" \/ c = py "yes" -> w_in w = c :: letter i :: r ->
  exists w', os_run (start_wiggle_shell (S f) folder) w = (Err OSError, w') /\ same_disk w w'.
Proof.
  intros O D T NA M Hi Hn P L F C W. unfold start_wiggle_shell. rewrite os_run_bind, (fine_run _ _ (fine_print_all _ w)), print_all_run. cbv beta iota.
  rewrite os_run_bind. unfold select_gdbms. rewrite os_run_bind, (fine_run (do_text CInput) _ (fine_text CInput _ I)), input_run. cbn [w_in w_fs w_out]. rewrite W.
  assert (NY : str_eqb c (py "y") || str_eqb c (py "yes") = true) by (rewrite orb_true_iff, !str_eqb_eq; exact C).
  cbv beta iota. rewrite NY. match goal with |- context [os_run (get_existing_gdbms _ _ _) ?v] => set (w1 := v) end.
  assert (D1 : disk w1) by (apply (disk_same w w1); [reflexivity|exact D]).
  rewrite (long_choice folder w1 l i n r f O D1 T NA M Hi Hn P L F eq_refl). eexists. split; reflexivity.
Qed.
