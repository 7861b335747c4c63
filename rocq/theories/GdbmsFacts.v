(** * GdbmsFacts: creating, choosing and deleting graphs *)
From Verif Require Import PyBase BaseFacts Json FS FSFacts Store SpecStore StoreFacts Query Gdbms SpecGdbms.
From Coq Require Import ZifyBool ZifyN ZifyNat.

(** ** paths *)
Lemma split_no_slash s acc : ~ In 47%N s -> split_slash s acc = [rev acc ++ s].
Proof.
  revert acc; induction s as [|c s IH]; intros acc H; cbn [split_slash]; [rewrite app_nil_r; reflexivity|].
  destruct (N.eqb_spec c 47) as [->|N]; [exfalso; apply H; left; reflexivity|].
  rewrite IH by (intros X; apply H; right; exact X). cbn [rev]. rewrite <- app_assoc. reflexivity.
Qed.
Lemma split_slash_app s t acc : ~ In 47%N s -> split_slash (s ++ 47%N :: t) acc = (rev acc ++ s) :: split_slash t [].
Proof.
  revert acc; induction s as [|c s IH]; intros acc H; cbn [split_slash app]; [cbn [N.eqb Pos.eqb]; rewrite app_nil_r; reflexivity|].
  destruct (N.eqb_spec c 47) as [->|N]; [exfalso; apply H; left; reflexivity|].
  rewrite IH by (intros X; apply H; right; exact X). cbn [rev]. rewrite <- app_assoc. reflexivity.
Qed.
Lemma kept_plain n : plain n -> kept_part n = true.
Proof.
  intros (NE & _ & _ & ND & _). unfold kept_part. apply andb_true_intro. split; apply negb_true_iff; apply not_true_iff_false; rewrite str_eqb_eq; auto.
Qed.
Lemma no_slash_app a b : ~ In 47%N a -> ~ In 47%N b -> ~ In 47%N (a ++ b).
Proof. intros A B H. apply in_app_iff in H. tauto. Qed.
Lemma no_slash_lit a : forallb (fun c => negb (N.eqb c 47)) a = true -> ~ In 47%N a.
Proof. rewrite forallb_forall. intros H I. apply H in I. discriminate. Qed.
Lemma plain_head n : plain n -> exists c s, n = c :: s /\ c <> 47%N.
Proof. intros (NE & NS & _). destruct n as [|c s]; [congruence|]. exists c, s. split; [reflexivity|]. intros ->. apply NS. left. reflexivity. Qed.
Lemma joinpath_plain dir n : plain n -> joinpath dir n = dir ++ [n].
Proof.
  intros P. destruct (plain_head n P) as (c & s & -> & Hc). unfold joinpath. rewrite (proj2 (N.eqb_neq c 47) Hc).
  unfold path_parts. rewrite split_no_slash by apply P. cbn [rev app List.filter]. rewrite (kept_plain _ P). reflexivity.
Qed.
Lemma joinpath_two dir n a b : plain n -> a <> [] -> forallb (fun c => negb (N.eqb c 47)) a = true ->
  forallb (fun c => negb (N.eqb c 47)) b = true -> List.length (a ++ b) > 1 ->
  joinpath dir (n ++ (47%N :: a) ++ n ++ b) = dir ++ [n; a ++ n ++ b].
Proof.
  intros P NE HA HB HL. destruct (plain_head n P) as (c & s & E & Hc). unfold joinpath. rewrite E at 1. cbn [app]. rewrite (proj2 (N.eqb_neq c 47) Hc).
  unfold path_parts. rewrite split_slash_app by apply P.
  rewrite split_no_slash by (apply no_slash_app; [apply no_slash_lit; exact HA|apply no_slash_app; [apply P|apply no_slash_lit; exact HB]]).
  cbn [rev app List.filter]. rewrite (kept_plain _ P).
  assert (K : kept_part (a ++ n ++ b) = true).
  { unfold kept_part. apply andb_true_intro. rewrite app_length in HL.
    split; apply negb_true_iff; apply not_true_iff_false; rewrite str_eqb_eq; intros X; apply (f_equal (@List.length N)) in X;
      rewrite !app_length in X; cbn [List.length py map list_ascii_of_string] in X; lia. }
  rewrite K. reflexivity.
Qed.
Lemma joinpath_slash dir n : plain n -> joinpath dir (n ++ py "/") = dir ++ [n].
Proof.
  intros P. destruct (plain_head n P) as (c & s & E & Hc). unfold joinpath. rewrite E at 1. cbn [app]. rewrite (proj2 (N.eqb_neq c 47) Hc).
  unfold path_parts. change (py "/") with (47%N :: []). rewrite split_slash_app by apply P. cbn [rev app split_slash List.filter].
  rewrite (kept_plain _ P). reflexivity.
Qed.
Lemma db_file_plain dir n : plain n -> db_file dir n = database_fp (graph_at dir n).
Proof. intros P. apply (joinpath_two dir n (py "database_") (py ".json") P); [discriminate|reflexivity|reflexivity|cbn; lia]. Qed.
Lemma idx_file_plain dir n : plain n -> idx_file dir n = indexes_fp (graph_at dir n).
Proof. intros P. apply (joinpath_two dir n (py "indexes_") (py ".json") P); [discriminate|reflexivity|reflexivity|cbn; lia]. Qed.
Lemma wn_file_plain dir n : plain n -> wn_file dir n = wiggle_number_fp (graph_at dir n).
Proof. intros P. apply (joinpath_two dir n (py "wiggle_number_") (py ".txt") P); [discriminate|reflexivity|reflexivity|cbn; lia]. Qed.

Lemma three_distinct dir n : distinct_files (graph_at dir n).
Proof.
  unfold distinct_files, graph_at. cbn [database_fp indexes_fp wiggle_number_fp].
  repeat split; intros H; apply app_inv_head in H; inversion H.
Qed.
Lemma others_distinct dir n m p : n <> m -> In p (files_of (graph_at dir n)) -> ~ In p (files_of (graph_at dir m)).
Proof.
  intros N H1 H2. unfold files_of, graph_at in *. cbn [database_fp indexes_fp wiggle_number_fp In] in *.
  assert (X : exists x, p = dir ++ [n; x]) by (destruct H1 as [<-|[<-|[<-|[]]]]; eauto).
  assert (Y : exists x, p = dir ++ [m; x]) by (destruct H2 as [<-|[<-|[<-|[]]]]; eauto).
  destruct X as (x & ->). destruct Y as (y & Y). apply app_inv_head in Y. inversion Y. congruence.
Qed.
Lemma absolute_paths dir dir' n : n = [] \/ (exists r, n = 47%N :: r) ->
  db_file dir n = db_file dir' n /\ idx_file dir n = idx_file dir' n /\ wn_file dir n = wn_file dir' n.
Proof. intros [->|(r & ->)]; repeat split. Qed.
Lemma empty_name_paths dir : db_file dir [] = [py "database_.json"] /\ idx_file dir [] = [py "indexes_.json"] /\ wn_file dir [] = [py "wiggle_number_.txt"].
Proof. repeat split. Qed.

(** ** directories *)
Lemma prefixes_spec p d : In d (prefixes p) <-> on_the_way p d.
Proof.
  unfold on_the_way. revert d; induction p as [|x p IH]; intros d; cbn [prefixes In].
  - split; [tauto|]. intros (N & q & E). destruct d; [congruence|discriminate].
  - split.
    + intros [<-|H]; [split; [discriminate|exists p; reflexivity]|]. apply in_map_iff in H as (d' & <- & H). apply IH in H as (N & q & ->).
      split; [discriminate|]. exists q. reflexivity.
    + intros (N & q & E). destruct d as [|y d]; [congruence|]. inversion E; subst. destruct d as [|z d]; [left; reflexivity|right].
      apply in_map. apply IH. split; [discriminate|]. exists q. reflexivity.
Qed.
Lemma prefixes_app p q : prefixes (p ++ q) = prefixes p ++ map (app p) (prefixes q).
Proof.
  induction p as [|x p IH]; cbn [prefixes app]; [symmetry; apply map_id|]. rewrite IH, map_app, map_map. reflexivity.
Qed.
Lemma mkdirs_app a b f : mkdirs (a ++ b) f = match mkdirs a f with (None, f') => mkdirs b f' | r => r end.
Proof.
  revert f; induction a as [|p a IH]; intros f; cbn [mkdirs app]; [reflexivity|].
  destruct (fs_get p f) as [[|t]|]; auto.
Qed.
Lemma mkdirs_there ps f : (forall d, In d ps -> fs_get d f = Some EDir) -> mkdirs ps f = (None, f).
Proof.
  induction ps as [|p ps IH]; intros H; cbn [mkdirs]; [reflexivity|]. rewrite (H p (or_introl eq_refl)). apply IH. intros d Hd. apply H. right. exact Hd.
Qed.
Lemma mkdirs_kept ps f e f' : mkdirs ps f = (e, f') -> forall p x, fs_get p f = Some x -> fs_get p f' = Some x.
Proof.
  revert f; induction ps as [|q ps IH]; intros f; cbn [mkdirs]; [intros H; inversion H; auto|].
  destruct (fs_get q f) as [[|t]|] eqn:Q; intros H p x Hx.
  - eapply IH; eauto.
  - inversion H; subst. exact Hx.
  - eapply IH; [exact H|]. rewrite fs_get_set. destruct (path_eqb p q) eqn:E; [apply path_eqb_eq in E; congruence|exact Hx].
Qed.
Lemma mkdirs_only ps f e f' : mkdirs ps f = (e, f') -> forall p, ~ In p ps -> fs_get p f' = fs_get p f.
Proof.
  revert f; induction ps as [|q ps IH]; intros f; cbn [mkdirs]; [intros H; inversion H; auto|].
  destruct (fs_get q f) as [[|t]|] eqn:Q; intros H p Hp.
  - eapply IH; [exact H|]. intros X. apply Hp. right. exact X.
  - inversion H; reflexivity.
  - rewrite (IH _ H) by (intros X; apply Hp; right; exact X). apply fs_get_set_other. intros ->. apply Hp. left. reflexivity.
Qed.

(** ** nothing that exists is changed by creation *)
Lemma kept_refl w : kept w w.
Proof. intros p e H. exact H. Qed.
Lemma kept_trans w1 w2 w3 : kept w1 w2 -> kept w2 w3 -> kept w1 w3.
Proof. intros A B p e H. apply B, A, H. Qed.
Lemma kept_print t w : kept w (snd (exec (CPrint t) w)).
Proof. intros p e H. exact H. Qed.

Definition file_run (dir : path) (n : pystr) (f : path) (content : pystr) (w : world) : res path * world := run (create_file dir n f content) w.
Lemma exec_mkdir_kept p w : kept w (snd (exec (CMkdir p) w)).
Proof.
  intros q e H. cbn [exec]. destruct (mkdirs (prefixes p) (w_fs w)) as [x f'] eqn:E.
  pose proof (mkdirs_kept _ _ _ _ E q e H) as K. destruct x; exact K.
Qed.
Lemma create_file_kept dir n f content w : kept w (snd (run (create_file dir n f content) w)).
Proof.
  unfold create_file. rewrite run_bind. unfold mkdir. destruct (has_nul (joinpath dir n)); [apply kept_refl|].
  assert (K1 := exec_mkdir_kept (joinpath dir n) w).
  cbn [run do_unit]. destruct (exec (CMkdir (joinpath dir n)) w) as [r w1] eqn:X1. cbn [snd] in K1.
  assert (H : kept w1 (snd (run (let! e := do_bool (CIsFile f) in if e then Throw ValueError else
      let! _ := do_unit (CTouch f) in let! _ := do_unit (CCreate f) in let! _ := do_unit (CWrite f 0 content) in Ret f) w1))).
  { rewrite run_bind. cbn [do_bool run exec]. destruct (fs_is_file f (w_fs w1)) eqn:F; [apply kept_refl|].
    cbn [do_unit io_bind run]. unfold fs_is_file in F.
    destruct (fs_get f (w_fs w1)) as [[|t]|] eqn:G; [| discriminate |].
    - assert (X2 : exec (CTouch f) w1 = (RUnit, w1)) by (cbn [exec]; rewrite G; reflexivity). rewrite X2. cbn [run io_bind].
      assert (X3 : exec (CCreate f) w1 = (RErr OSError, w1)) by (cbn [exec]; rewrite G; reflexivity). rewrite X3. cbn [run io_bind snd]. apply kept_refl.
    - destruct (fs_is_dir (parent f) (w_fs w1)) eqn:D.
      + assert (X2 : exec (CTouch f) w1 = (RUnit, put f [] w1)) by (cbn [exec]; rewrite G, D; reflexivity). rewrite X2. cbn [run io_bind].
        assert (X3 : exec (CCreate f) (put f [] w1) = (RUnit, put f [] w1)).
        { pose proof (get_put_same f [] w1) as P. unfold get in P. cbn [exec]. rewrite P. f_equal. fold (put f [] (put f [] w1)). apply put_put. }
        rewrite X3. cbn [run io_bind].
        assert (X4 : exec (CWrite f 0 content) (put f [] w1) = (RUnit, put f (write_at [] 0 content) (put f [] w1))).
        { pose proof (get_put_same f [] w1) as P. unfold get in P. cbn [exec]. rewrite P. reflexivity. }
        rewrite X4. cbn [run io_bind snd]. rewrite put_put. intros p e H. unfold entry_at. fold (get p (put f (write_at [] 0 content) w1)).
        rewrite get_put_other; [exact H|]. intros ->. unfold entry_at in H. congruence.
      + assert (X2 : exec (CTouch f) w1 = (RErr FileNotFoundError, w1)) by (cbn [exec]; rewrite G, D; reflexivity). rewrite X2. cbn [run io_bind snd]. apply kept_refl. }
  destruct r; cbn [run]; try (eapply kept_trans; [exact K1|exact H]). exact K1.
Qed.
Lemma bind_kept {A B} (m : io A) (f : A -> io B) w : (forall w, kept w (snd (run m w))) -> (forall a w, kept w (snd (run (f a) w))) -> kept w (snd (run (io_bind m f) w)).
Proof.
  intros HM HF. rewrite run_bind. specialize (HM w). destruct (run m w) as [[a|e] w1]; cbn [snd] in *; [|exact HM]. eapply kept_trans; [exact HM|apply HF].
Qed.
Lemma catch_kept {A} (m : io A) h w : (forall w, kept w (snd (run m w))) -> (forall e m' w, h e = Some m' -> kept w (snd (run m' w))) -> kept w (snd (run (io_catch m h) w)).
Proof.
  intros HM HH. rewrite run_catch. specialize (HM w). destruct (run m w) as [[a|e] w1]; cbn [snd] in *; [exact HM|].
  destruct (h e) as [m'|] eqn:E; [|exact HM]. eapply kept_trans; [exact HM|eapply HH; exact E].
Qed.
Lemma print_kept t w : kept w (snd (run (do_unit (CPrint t)) w)).
Proof. intros p e H. exact H. Qed.
Lemma input_kept w : kept w (snd (run (do_text CInput) w)).
Proof. intros p e H. cbn [do_text run exec]. destruct (w_in w); exact H. Qed.
Lemma reads_kept {A} (m : io A) : reads_only m -> forall w, kept w (snd (run m w)).
Proof. intros H w. rewrite reads_only_run by exact H. apply kept_refl. Qed.
Lemma new_kept n dir w : kept w (snd (run (get_new_gdbms_file_paths n dir) w)).
Proof.
  unfold get_new_gdbms_file_paths. apply catch_kept.
  - intros. repeat (apply bind_kept; [intros; try apply create_file_kept; try apply print_kept|intros]). apply kept_refl.
  - intros e m' w1. destruct (is_value_error e); [|discriminate]. intros H. inversion H; subst. intros p x Hx. exact Hx.
Qed.
Lemma create_kept fuel dir w : kept w (snd (run (create_new_dbms fuel dir) w)).
Proof.
  revert w; induction fuel as [|fuel IH]; intros w; [apply kept_refl|]. cbn [create_new_dbms].
  apply bind_kept; [intros; apply input_kept|]. intros name w1. apply bind_kept.
  - intros w2. apply catch_kept; [intros; apply bind_kept; [intros; apply new_kept|intros; apply kept_refl]|].
    intros e m' w3. destruct (is_value_error e); [|discriminate]. intros H. inversion H; subst. intros p x Hx. exact Hx.
  - intros [g|] w2; [apply kept_refl|apply IH].
Qed.

Lemma ro_bool c : (match c with CIsFile _ | CIsDir _ => True | _ => False end) -> reads_only (do_bool c).
Proof. intros H. constructor; [destruct c; tauto|]. intros []; constructor. Qed.
Lemma ro_names p : reads_only (do_names (CList p)).
Proof. constructor; [exact I|]. intros []; constructor. Qed.
Lemma ro_filter {A} (p : A -> io bool) l : (forall x, reads_only (p x)) -> reads_only (filter_io p l).
Proof.
  intros H. induction l as [|x l IH]; cbn [filter_io]; [constructor|]. apply reads_only_bind; [apply H|]. intros b. apply reads_only_bind; [apply IH|]. intros r. constructor.
Qed.
Lemma ro_list skips dir : reads_only (list_existing_dbms skips dir).
Proof.
  unfold list_existing_dbms. apply reads_only_bind; [apply ro_names|]. intros names. apply reads_only_bind; [|intros; constructor].
  apply ro_filter. intros x. apply reads_only_bind; [apply ro_bool; exact I|intros; constructor].
Qed.
Lemma print_all_run l w : run (print_all l) w = (Ok tt, {| w_fs := w_fs w; w_in := w_in w; w_out := w_out w ++ l |}).
Proof.
  revert w; induction l as [|t l IH]; intros w; cbn [print_all].
  - cbn [run]. rewrite app_nil_r. destruct w; reflexivity.
  - rewrite run_bind. cbn [do_unit run exec]. rewrite IH. cbn [w_fs w_in w_out]. rewrite <- app_assoc. reflexivity.
Qed.
Lemma ro_existing f : reads_only (existing_file f).
Proof. unfold existing_file. apply reads_only_bind; [apply ro_bool; exact I|]. intros []; constructor. Qed.

(** ** the menu *)
Lemma str_leb_total a b : str_leb a b = true \/ str_leb b a = true.
Proof.
  revert b; induction a as [|x a IH]; intros [|y b]; cbn [str_leb]; auto.
  destruct (IH b) as [H|H]; rewrite H; rewrite ?andb_true_r; lia.
Qed.
Lemma str_leb_lt a b : str_leb a b = true -> a <> b -> str_lt a b.
Proof.
  revert b; induction a as [|x a IH]; intros [|y b] H N; cbn [str_leb] in H; try congruence; [constructor|].
  apply orb_prop in H as [H|H]; [apply lt_head; lia|]. apply andb_prop in H as [H1 H2]. apply N.eqb_eq in H1 as ->. apply lt_tail. apply IH; [exact H2|congruence].
Qed.
Lemma str_lt_trans a b c : str_lt a b -> str_lt b c -> str_lt a c.
Proof.
  intros H; revert c; induction H; intros c' H'; inversion H'; subst.
  - constructor. - constructor. - apply lt_head; lia. - apply lt_head; lia. - apply lt_head; lia. - apply lt_tail. auto.
Qed.
Lemma str_lt_irrefl a : ~ str_lt a a.
Proof. induction a as [|x a IH]; intros H; inversion H; subst; [lia|auto]. Qed.
Lemma insert_in x y l : In y (insert_str x l) <-> y = x \/ In y l.
Proof.
  induction l as [|z l IH]; cbn [insert_str In]; [intuition|]. destruct (str_leb x z); cbn [In]; [intuition|]. rewrite IH. intuition.
Qed.
Lemma insert_asc x l : ascending l -> ~ In x l -> ascending (insert_str x l).
Proof.
  induction 1 as [|z l HZ HA IH]; intros N; cbn [insert_str]; [constructor; [intros b []|constructor]|].
  destruct (str_leb x z) eqn:E.
  - assert (XZ : str_lt x z) by (apply str_leb_lt; [exact E|intros ->; apply N; left; reflexivity]).
    constructor; [|constructor; assumption]. intros b [<-|Hb]; [exact XZ|]. eapply str_lt_trans; [exact XZ|apply HZ; exact Hb].
  - constructor; [|apply IH; intros X; apply N; right; exact X]. intros b Hb. apply insert_in in Hb as [->|Hb]; [|apply HZ; exact Hb].
    apply str_leb_lt; [destruct (str_leb_total x z); congruence|intros ->; apply N; left; reflexivity].
Qed.
Lemma sort_in x l : In x (sort_strs l) <-> In x l.
Proof. induction l as [|y l IH]; cbn [sort_strs fold_right In]; [tauto|]. fold (sort_strs l). rewrite insert_in, IH. intuition. Qed.
Lemma sort_asc l : NoDup l -> ascending (sort_strs l).
Proof. induction 1 as [|x l N H IH]; cbn [sort_strs fold_right]; [constructor|]. fold (sort_strs l). apply insert_asc; [exact IH|]. rewrite sort_in. exact N. Qed.
Lemma asc_unique l m : ascending l -> ascending m -> (forall x, In x l <-> In x m) -> l = m.
Proof.
  intros H; revert m; induction H as [|a l HL HA IH]; intros m HM E.
  - destruct m as [|b m]; [reflexivity|]. exfalso. apply (E b). left. reflexivity.
  - destruct HM as [|b m HB HM]; [exfalso; apply (E a); left; reflexivity|].
    assert (AB : a = b).
    { destruct (proj1 (E a) (or_introl eq_refl)) as [->|IA]; [reflexivity|]. destruct (proj2 (E b) (or_introl eq_refl)) as [->|IB]; [reflexivity|].
      exfalso. apply (str_lt_irrefl a). eapply str_lt_trans; [apply HL; exact IB|apply HB; exact IA]. }
    subst b. f_equal. apply IH; [exact HM|]. intros x. split; intros Hx.
    + destruct (proj1 (E x) (or_intror Hx)) as [->|X]; [|exact X]. exfalso. apply (str_lt_irrefl x), HL, Hx.
    + destruct (proj2 (E x) (or_intror Hx)) as [->|X]; [|exact X]. exfalso. apply (str_lt_irrefl x), HB, Hx.
Qed.

Lemma child_name_spec d p n : child_name d p = Some n <-> p = d ++ [n].
Proof.
  assert (C : child_name d p = match p with [] => None | _ => if path_eqb (removelast p) d then Some (List.last p []) else None end) by (destruct p; reflexivity).
  destruct (list_eq_dec str_eq_dec p []) as [->|N]; [split; [discriminate|intros H; destruct d; discriminate]|].
  assert (C' : child_name d p = if path_eqb (removelast p) d then Some (List.last p []) else None) by (destruct p; [congruence|exact C]).
  rewrite C'. clear C C'. destruct (path_eqb (removelast p) d) eqn:E.
  - apply path_eqb_eq in E. split; intros H.
    + assert (H' := f_equal (fun o => match o with Some x => x | None => n end) H). cbv beta iota in H'. rewrite <- E, <- H'. apply app_removelast_last. exact N.
    + rewrite H, last_last. reflexivity.
  - split; [discriminate|]. intros ->. rewrite removelast_last, path_eqb_refl in E. discriminate.
Qed.
Lemma fs_get_In p e f : NoDup (map fst f) -> (In (p, e) f <-> fs_get p f = Some e).
Proof.
  induction f as [|[q x] f IH]; cbn [map fst fs_get In]; intros ND; [split; [intros []|discriminate]|].
  inversion ND as [|? ? N1 N2]; subst. destruct (path_eqb p q) eqn:E.
  - apply path_eqb_eq in E. subst q. split; [|intros X; inversion X; auto]. intros [X|X]; [inversion X; reflexivity|]. exfalso. apply N1. apply (in_map fst) in X. exact X.
  - rewrite <- IH by exact N2. split; [intros [X|X]; [inversion X; subst; rewrite path_eqb_refl in E; discriminate|exact X]|auto].
Qed.
Lemma children_spec d f n : NoDup (map fst f) -> (In n (children d f) <-> exists e, fs_get (d ++ [n]) f = Some e).
Proof.
  intros ND. unfold children. rewrite in_flat_map. split.
  - intros ([p e] & Hp & H). cbn [fst] in H. destruct (child_name d p) as [m|] eqn:C; [|destruct H]. destruct H as [<-|[]]. apply child_name_spec in C. subst p.
    exists e. apply fs_get_In; assumption.
  - intros (e & H). exists (d ++ [n], e). split; [apply fs_get_In; assumption|]. cbn [fst]. rewrite (proj2 (child_name_spec d (d ++ [n]) n) eq_refl). left. reflexivity.
Qed.
Lemma children_nodup d f : NoDup (map fst f) -> NoDup (children d f).
Proof.
  induction f as [|[p e] f IH]; cbn [map fst children flat_map]; intros ND; [constructor|]. inversion ND as [|? ? N1 N2]; subst. fold (children d f).
  destruct (child_name d p) as [n|] eqn:C; [|apply IH; exact N2]. cbn [app]. constructor; [|apply IH; exact N2].
  intros H. apply children_spec in H as (x & H); [|exact N2]. apply child_name_spec in C. subst p. apply N1. apply fs_get_In in H; [|exact N2]. apply (in_map fst) in H. exact H.
Qed.
Lemma filter_io_pure {A} (p : A -> io bool) (q : A -> bool) l w : (forall x, run (p x) w = (Ok (q x), w)) -> run (filter_io p l) w = (Ok (List.filter q l), w).
Proof.
  intros H. induction l as [|x l IH]; cbn [filter_io List.filter]; [reflexivity|]. rewrite run_bind, H, run_bind, IH. cbn [run]. destruct (q x); reflexivity.
Qed.
Lemma fs_is_dir_spec p w : fs_is_dir p (w_fs w) = true <-> is_a_dir p w.
Proof.
  unfold fs_is_dir, is_a_dir, entry_at. destruct p as [|x p]; [intuition|]. destruct (fs_get (x :: p) (w_fs w)) as [[|t]|]; split; intros H; try discriminate; auto;
  destruct H; congruence.
Qed.
Lemma list_run dir w : disk w -> is_a_dir dir w -> exists l, run (list_existing_dbms SKIPS dir) w = (Ok l, w) /\ menu dir w l.
Proof.
  intros DW HD. unfold list_existing_dbms. rewrite run_bind. cbn [do_names run exec]. rewrite (proj2 (fs_is_dir_spec dir w) HD). cbn [run].
  rewrite run_bind, (filter_io_pure _ (fun n => fs_is_dir (dir ++ [n]) (w_fs w) && negb (s_mem n SKIPS))).
  2:{ intros x. rewrite run_bind. cbn [do_bool run exec]. reflexivity. }
  cbn [run]. eexists. split; [reflexivity|]. split.
  - apply sort_asc. apply NoDup_filter. apply children_nodup. apply DW.
  - intros n. rewrite sort_in, filter_In, children_spec by apply DW. rewrite andb_true_iff, negb_true_iff, <- not_true_iff_false, s_mem_In, fs_is_dir_spec.
    unfold is_a_dir. cbn [SKIPS In]. split.
    + intros ((e & He) & [X|X] & N); [destruct dir; discriminate|]. repeat split; [exact X| |]; intros ->; apply N; auto.
    + intros (X & N1 & N2). split; [exists EDir; exact X|]. split; [right; exact X|]. intros [E|[E|[]]]; congruence.
Qed.
Lemma menu_unique dir w l m : menu dir w l -> menu dir w m -> l = m.
Proof. intros [A1 B1] [A2 B2]. apply asc_unique; auto. intros x. rewrite B1, B2. reflexivity. Qed.
Lemma menu_exists dir w : disk w -> is_a_dir dir w -> exists l, menu dir w l.
Proof. intros D H. destruct (list_run dir w D H) as (l & _ & M). eauto. Qed.
Lemma list_run_menu dir w l : disk w -> is_a_dir dir w -> menu dir w l -> run (list_existing_dbms SKIPS dir) w = (Ok l, w).
Proof. intros D H M. destruct (list_run dir w D H) as (l' & R & M'). rewrite (menu_unique _ _ _ _ M M'). exact R. Qed.

Lemma uppercase_letters : ascii_uppercase = map letter (List.seq 0 26).
Proof. reflexivity. Qed.
Lemma combine_seq {A B} (f : nat -> A) (l : list B) k n :
  combine (map f (List.seq k n)) l = combine (map f (List.seq k (Nat.min n (List.length l)))) (firstn n l).
Proof.
  revert k l; induction n as [|n IH]; intros k [|x l]; cbn [List.seq map combine firstn List.length Nat.min]; auto. f_equal. apply IH.
Qed.
Lemma letters_eq l : letters l = menu_lines l.
Proof. unfold letters, menu_lines, upto26. rewrite uppercase_letters. apply combine_seq. Qed.
Lemma letter_inj i j : letter i = letter j -> i = j.
Proof.
  intros H. assert (E : N.of_nat (65 + i) = N.of_nat (65 + j)) by exact (f_equal (fun s => hd 0%N s) H). apply Nat2N.inj in E. lia.
Qed.
Lemma d_get_letter i (l : list pystr) n k : d_get (letter i) (combine (map letter (List.seq k n)) l) = if (k <=? i) && (i <? k + n) then nth_error l (i - k) else None.
Proof.
  revert k l; induction n as [|n IH]; intros k l; cbn [List.seq map combine].
  - replace ((k <=? i) && (i <? k + 0)) with false by lia. reflexivity.
  - destruct l as [|x l]; cbn [d_get].
    + destruct ((k <=? i) && (i <? k + S n)); [|reflexivity]. destruct (i - k); reflexivity.
    + destruct (str_eqb (letter i) (letter k)) eqn:E.
      * apply str_eqb_eq, letter_inj in E. subst. rewrite Nat.sub_diag. replace ((k <=? k) && (k <? k + S n)) with true by lia. reflexivity.
      * rewrite IH. assert (NE : i <> k) by (intros ->; rewrite str_eqb_refl in E; discriminate).
        destruct (k <=? i) eqn:E1.
        -- replace (S k <=? i) with true by lia. replace (i <? S k + n) with (i <? k + S n) by lia. cbn [andb].
           destruct (i <? k + S n); [|reflexivity]. replace (i - k) with (S (i - S k)) by lia. reflexivity.
        -- replace (S k <=? i) with false by lia. reflexivity.
Qed.
Lemma d_get_any s (l : list pystr) n : d_get s (combine (map letter (List.seq 0 n)) l) <> None -> exists i, s = letter i.
Proof.
  generalize 0. revert l; induction n as [|n IH]; intros l k H; cbn [List.seq map combine] in H; [exfalso; apply H; reflexivity|].
  destruct l as [|x l]; [exfalso; apply H; reflexivity|]. cbn [d_get] in H. destruct (str_eqb s (letter k)) eqn:E; [apply str_eqb_eq in E; eauto|]. eapply IH; exact H.
Qed.
Lemma menu_get l s n : d_get s (letters l) = Some n <-> exists i, i < 26 /\ s = letter i /\ nth_error l i = Some n.
Proof.
  unfold letters. rewrite uppercase_letters. split.
  - intros H. destruct (d_get_any s l 26) as (i & ->); [congruence|]. rewrite d_get_letter, Nat.sub_0_r in H. exists i.
    destruct ((0 <=? i) && (i <? 0 + 26)) eqn:E; [|discriminate]. split; [lia|]. auto.
  - intros (i & Hi & -> & H). rewrite d_get_letter, Nat.sub_0_r. replace ((0 <=? i) && (i <? 0 + 26)) with true by lia. exact H.
Qed.
Lemma display_run dir w l : disk w -> is_a_dir dir w -> menu dir w l ->
  run (get_and_display_available_dbms dir) w = match l with [] => (Ok None, w) | _ => (Ok (Some (menu_lines l)), say (shown l) w) end.
Proof.
  intros D H M. unfold get_and_display_available_dbms. rewrite run_bind, (list_run_menu _ _ _ D H M).
  destruct l as [|x l]; [reflexivity|]. cbv zeta. rewrite letters_eq. rewrite run_bind. cbn [do_unit run exec].
  rewrite run_bind, print_all_run. rewrite run_bind. cbn [do_unit run exec w_fs w_in w_out]. unfold say, shown. rewrite <- !app_assoc. reflexivity.
Qed.

(** ** choosing *)
Lemma disk_same w w' : same_disk w w' -> disk w -> disk w'.
Proof. unfold same_disk. intros E [A B C]. unfold entry_at in *. split; unfold entry_at; rewrite E; auto. Qed.
Lemma is_a_dir_same w w' d : same_disk w w' -> is_a_dir d w -> is_a_dir d w'.
Proof. unfold same_disk, is_a_dir, entry_at. intros ->. auto. Qed.
Lemma menu_same w w' d l : same_disk w w' -> menu d w l -> menu d w' l.
Proof. unfold same_disk, menu, entry_at. intros ->. auto. Qed.
Lemma existing_run f w : run (existing_file f) w = if fs_is_file f (w_fs w) then (Ok f, w) else (Err FileNotFoundError, w).
Proof. unfold existing_file. rewrite run_bind. cbn [do_bool run exec]. destruct (fs_is_file f (w_fs w)); reflexivity. Qed.
Definition files_there (dir : path) (n : pystr) (w : world) : bool :=
  fs_is_file (db_file dir n) (w_fs w) && fs_is_file (idx_file dir n) (w_fs w) && fs_is_file (wn_file dir n) (w_fs w).
Definition paths_for (dir : path) (n : pystr) : gdbms :=
  {| database_fp := db_file dir n; indexes_fp := idx_file dir n; wiggle_number_fp := wn_file dir n |}.
Lemma paths_for_plain dir n : plain n -> paths_for dir n = graph_at dir n.
Proof. intros P. unfold paths_for. rewrite db_file_plain, idx_file_plain, wn_file_plain by exact P. reflexivity. Qed.
Lemma get_existing_step f folder dir w l : disk w -> is_a_dir folder w -> menu folder w l -> l <> [] ->
  run (get_existing_gdbms (S f) folder dir) w =
  match w_in w with
  | [] => (Err EOFError, say (shown l) w)
  | s :: r =>
      let w1 := {| w_fs := w_fs w; w_in := r; w_out := w_out w ++ shown l |} in
      match d_get s (letters l) with
      | None => run (get_existing_gdbms f folder dir) (say [s ++ py " does not exist, please select an existing DB"] w1)
      | Some n => if files_there dir n w then (Ok (paths_for dir n), w1)
                  else run (get_existing_gdbms f folder dir) (say [py "Database files could not be found "] w1)
      end
  end.
Proof.
  intros D H M NE. cbn [get_existing_gdbms]. rewrite run_bind, (display_run _ _ _ D H M). rewrite letters_eq.
  destruct l as [|x l]; [congruence|]. destruct (menu_lines (x :: l)) as [|kv ml] eqn:ML; [discriminate|].
  rewrite run_bind. cbn [do_text run exec say w_in w_fs w_out]. destruct (w_in w) as [|s r]; cbn [run]; [reflexivity|].
  cbv zeta. destruct (d_get s (kv :: ml)) as [n|].
  - rewrite run_bind, run_catch. rewrite run_bind, existing_run. cbn [w_fs]. unfold files_there.
    destruct (fs_is_file (db_file dir n) (w_fs w)); cbn [andb]; [|reflexivity].
    rewrite run_bind, existing_run. cbn [w_fs].
    destruct (fs_is_file (idx_file dir n) (w_fs w)); cbn [andb]; [|reflexivity].
    rewrite run_bind, existing_run. cbn [w_fs].
    destruct (fs_is_file (wn_file dir n) (w_fs w)); reflexivity.
  - rewrite run_bind. reflexivity.
Qed.
Theorem choose folder w l i n r f : disk w -> is_a_dir folder w -> menu folder w l -> i < 26 -> nth_error l i = Some n -> plain n ->
  (forall p, In p (files_of (graph_at folder n)) -> exists t, entry_at p w = Some (EFile t)) -> w_in w = letter i :: r ->
  run (get_existing_gdbms (S f) folder folder) w =
    (Ok (graph_at folder n), {| w_fs := w_fs w; w_in := r; w_out := w_out w ++ shown l |}).
Proof.
  intros D H M Hi Hn P F E. rewrite (get_existing_step f folder folder w l D H M) by (intros ->; destruct i; discriminate).
  rewrite E. cbv zeta. rewrite (proj2 (menu_get l (letter i) n)) by eauto.
  replace (files_there folder n w) with true; [rewrite paths_for_plain by exact P; reflexivity|].
  symmetry. unfold files_there, fs_is_file. rewrite db_file_plain, idx_file_plain, wn_file_plain by exact P. unfold files_of, entry_at in F. cbn [In] in F.
  destruct (F _ (or_introl eq_refl)) as (t1 & ->). destruct (F _ (or_intror (or_introl eq_refl))) as (t2 & ->).
  destruct (F _ (or_intror (or_intror (or_introl eq_refl)))) as (t3 & ->). reflexivity.
Qed.
Theorem chosen f folder dir w l g w' : disk w -> is_a_dir folder w -> menu folder w l -> l <> [] ->
  run (get_existing_gdbms f folder dir) w = (Ok g, w') ->
  same_disk w w' /\ exists i n, i < 26 /\ nth_error l i = Some n /\ g = paths_for dir n /\
    forall p, In p (files_of g) -> exists t, entry_at p w = Some (EFile t).
Proof.
  revert w; induction f as [|f IH]; intros w D H M NE R; [discriminate|].
  rewrite (get_existing_step f folder dir w l D H M NE) in R. destruct (w_in w) as [|s r]; [discriminate|]. cbv zeta in R.
  assert (L : forall ts, let w1 := say ts {| w_fs := w_fs w; w_in := r; w_out := w_out w ++ shown l |} in
     run (get_existing_gdbms f folder dir) w1 = (Ok g, w') -> same_disk w w' /\ exists i n, i < 26 /\ nth_error l i = Some n /\ g = paths_for dir n /\
       forall p, In p (files_of g) -> exists t, entry_at p w = Some (EFile t)).
  { intros ts w1 R1. assert (SD : same_disk w w1) by reflexivity.
    apply IH in R1; [exact R1|eapply disk_same; eauto|eapply is_a_dir_same; eauto|eapply menu_same; eauto|exact NE]. }
  destruct (d_get s (letters l)) as [n|] eqn:E; [|apply L in R; exact R].
  destruct (files_there dir n w) eqn:FT; [|apply L in R; exact R].
  inversion R; subst. split; [reflexivity|]. apply menu_get in E as (i & Hi & _ & Hn). exists i, n. split; [exact Hi|]. split; [exact Hn|]. split; [reflexivity|].
  unfold files_there, fs_is_file in FT. unfold files_of, paths_for, entry_at. cbn [database_fp indexes_fp wiggle_number_fp In].
  intros p.
  destruct (fs_get (db_file dir n) (w_fs w)) as [[|t1]|] eqn:E1; try discriminate.
  destruct (fs_get (idx_file dir n) (w_fs w)) as [[|t2]|] eqn:E2; try discriminate.
  destruct (fs_get (wn_file dir n) (w_fs w)) as [[|t3]|] eqn:E3; try discriminate.
  intros [<-|[<-|[<-|[]]]]; eauto.
Qed.

(** ** everything the first dialogue can do *)
Lemma display_kept dir w : kept w (snd (run (get_and_display_available_dbms dir) w)).
Proof.
  unfold get_and_display_available_dbms. apply bind_kept; [apply reads_kept, ro_list|]. intros [|x l] w1; [apply kept_refl|].
  apply bind_kept; [intros; apply print_kept|]. intros _ w2. apply bind_kept; [intros w3; rewrite print_all_run; intros p e H; exact H|].
  intros _ w3. apply bind_kept; [intros; apply print_kept|]. intros; apply kept_refl.
Qed.
Lemma existing_kept f folder dir w : kept w (snd (run (get_existing_gdbms f folder dir) w)).
Proof.
  revert w; induction f as [|f IH]; intros w; [apply kept_refl|]. cbn [get_existing_gdbms].
  apply bind_kept; [intros; apply display_kept|].
  assert (N : forall w1, kept w1 (snd (run (let! _ := do_unit (CPrint (py "There are no databases, please create a new database.")) in create_new_dbms f dir) w1))).
  { intros w1. apply bind_kept; [intros; apply print_kept|]. intros; apply create_kept. }
  intros [[|kv d]|] w1; [apply N| |apply N].
  apply bind_kept; [intros; apply input_kept|]. intros s w2. destruct (d_get s (kv :: d)) as [n|].
  - apply bind_kept.
    + intros w3. apply catch_kept.
      * intros w4. apply reads_kept. repeat (apply reads_only_bind; [apply ro_existing|intros]). constructor.
      * intros e m' w4 H. destruct e; try discriminate. inversion H; subst. intros p x Hx. exact Hx.
    + intros [g|] w3; [apply kept_refl|apply IH].
  - apply bind_kept; [intros; apply print_kept|]. intros; apply IH.
Qed.
Lemma select_kept f folder w : kept w (snd (run (select_gdbms f folder) w)).
Proof.
  unfold select_gdbms. apply bind_kept; [intros; apply input_kept|]. intros c w1. destruct (_ || _); [apply existing_kept|apply create_kept].
Qed.

(** ** a new graph *)
Lemma has_nul_false dir n : no_nul dir -> plain n -> has_nul (dir ++ [n]) = false.
Proof.
  intros H (_ & _ & N & _). apply not_true_iff_false. unfold has_nul. rewrite existsb_exists. intros (c & Hc & E). apply existsb_exists in E as (x & Hx & E).
  apply N.eqb_eq in E. subst x. apply in_app_iff in Hc as [Hc|[<-|[]]]; [|contradiction]. unfold no_nul in H. rewrite Forall_forall in H. apply (H c Hc Hx).
Qed.
Definition set_entry (p : path) (e : entry) (w : world) : world := with_fs w (fs_set p e (w_fs w)).
Lemma fs_set_keys p e f : fs_get p f = None -> map fst (fs_set p e f) = map fst f ++ [p].
Proof.
  induction f as [|[q x] f IH]; cbn [fs_get fs_set map fst app]; [reflexivity|]. destruct (path_eqb p q); [discriminate|]. intros H. cbn [map fst]. rewrite IH by exact H. reflexivity.
Qed.
Lemma fs_set_keys_same p e f : fs_get p f <> None -> map fst (fs_set p e f) = map fst f.
Proof.
  induction f as [|[q x] f IH]; cbn [fs_get fs_set]; [congruence|]. destruct (path_eqb p q) eqn:E; cbn [map fst]; [reflexivity|]. intros H. rewrite IH by exact H. reflexivity.
Qed.
Lemma fs_get_none p f : fs_get p f = None -> ~ In p (map fst f).
Proof.
  induction f as [|[q x] f IH]; cbn [fs_get map fst In]; [tauto|]. destruct (path_eqb p q) eqn:E; [discriminate|]. intros H [->|X]; [rewrite path_eqb_refl in E; discriminate|]. apply IH; assumption.
Qed.
Lemma NoDup_snoc {A} (l : list A) x : NoDup l -> ~ In x l -> NoDup (l ++ [x]).
Proof.
  induction 1 as [|y l N H IH]; intros X; cbn [app]; [constructor; [intros []|constructor]|]. constructor.
  - rewrite in_app_iff. intros [Y|[Y|[]]]; [contradiction|]. subst. apply X. left. reflexivity.
  - apply IH. intros Y. apply X. right. exact Y.
Qed.
Lemma disk_add p e w : disk w -> entry_at p w = None -> p <> [] -> (forall d, on_the_way p d -> d <> p -> entry_at d w = Some EDir) -> disk (set_entry p e w).
Proof.
  intros [D1 D2 D3] H NE W. unfold entry_at in *. split; unfold entry_at; cbn [set_entry with_fs w_fs].
  - rewrite fs_set_keys by exact H. apply NoDup_snoc; [exact D1|]. apply fs_get_none. exact H.
  - intros q d x Hq Hd Nd. rewrite fs_get_set in Hq. rewrite fs_get_set. destruct (path_eqb q p) eqn:E.
    + apply path_eqb_eq in E. subst q. rewrite path_eqb_neq by exact Nd. apply W; assumption.
    + destruct (path_eqb d p) eqn:E2; [|eapply D2; eassumption]. apply path_eqb_eq in E2. subst d.
      rewrite (D2 q p x Hq Hd Nd) in H. discriminate.
  - rewrite fs_get_set_other by auto. exact D3.
Qed.
Lemma disk_put p t u w : disk w -> entry_at p w = Some (EFile u) -> disk (put p t w).
Proof.
  intros [D1 D2 D3] H. unfold entry_at in *. split; unfold entry_at; cbn [put with_fs w_fs].
  - rewrite fs_set_keys_same by congruence. exact D1.
  - intros q d x Hq Hd Nd. rewrite fs_get_set in Hq. rewrite fs_get_set. destruct (path_eqb q p) eqn:E.
    + apply path_eqb_eq in E. subst q. rewrite path_eqb_neq by exact Nd. eapply D2; eassumption.
    + destruct (path_eqb d p) eqn:E2; [|eapply D2; eassumption]. apply path_eqb_eq in E2. subst d.
      rewrite (D2 q p x Hq Hd Nd) in H. discriminate.
  - rewrite fs_get_set_other; [exact D3|]. intros <-. congruence.
Qed.

Lemma on_the_way_snoc dir n d : on_the_way (dir ++ [n]) d <-> on_the_way dir d \/ d = dir ++ [n].
Proof.
  rewrite <- !prefixes_spec, prefixes_app. cbn [prefixes map app]. rewrite in_app_iff. cbn [In]. intuition.
Qed.
Definition with_folder (dir : path) (n : pystr) (w : world) : world :=
  match entry_at (dir ++ [n]) w with Some _ => w | None => set_entry (dir ++ [n]) EDir w end.
Lemma exec_mkdir_new dir n w : dir_there dir w -> (entry_at (dir ++ [n]) w = None \/ entry_at (dir ++ [n]) w = Some EDir) ->
  exec (CMkdir (dir ++ [n])) w = (RUnit, with_folder dir n w).
Proof.
  intros T H. cbn [exec]. rewrite prefixes_app, mkdirs_app, mkdirs_there by (intros d Hd; apply T, prefixes_spec; exact Hd).
  cbn [prefixes map mkdirs app]. unfold with_folder, set_entry, entry_at in *. destruct H as [H|H]; rewrite H; [reflexivity|]. rewrite world_eta. reflexivity.
Qed.
Lemma create_file_new dir n f content w : plain n -> no_nul dir -> dir_there dir w -> entry_at (dir ++ [n]) w = Some EDir ->
  parent f = dir ++ [n] -> entry_at f w = None -> run (create_file dir n f content) w = (Ok f, put f content w).
Proof.
  intros P NN T HF PF H. unfold create_file. rewrite run_bind. unfold mkdir. rewrite joinpath_plain, has_nul_false by assumption.
  cbn [do_unit run]. rewrite exec_mkdir_new by auto. unfold with_folder. rewrite HF. cbn [run].
  rewrite run_bind. cbn [do_bool run exec]. unfold fs_is_file, entry_at in *. rewrite H. cbn [do_unit io_bind run].
  assert (DD : fs_is_dir (parent f) (w_fs w) = true) by (apply fs_is_dir_spec; right; rewrite PF; exact HF).
  assert (X2 : exec (CTouch f) w = (RUnit, put f [] w)) by (cbn [exec]; rewrite H, DD; reflexivity). rewrite X2. cbn [run io_bind].
  assert (P0 : fs_get f (w_fs (put f [] w)) = Some (EFile [])) by apply get_put_same.
  assert (X3 : exec (CCreate f) (put f [] w) = (RUnit, put f [] w)).
  { cbn [exec]. rewrite P0. f_equal. fold (put f [] (put f [] w)). apply put_put. }
  rewrite X3. cbn [run io_bind].
  assert (X4 : exec (CWrite f 0 content) (put f [] w) = (RUnit, put f (write_at [] 0 content) (put f [] w))) by (cbn [exec]; rewrite P0; reflexivity).
  rewrite X4. cbn [run io_bind]. rewrite put_put, write_at_0, skipn_nil, app_nil_r. reflexivity.
Qed.
Lemma create_file_first dir n f content w : plain n -> no_nul dir -> dir_there dir w -> (entry_at (dir ++ [n]) w = None \/ entry_at (dir ++ [n]) w = Some EDir) ->
  run (create_file dir n f content) w = run (create_file dir n f content) (with_folder dir n w).
Proof.
  intros P NN T H. unfold create_file. rewrite !run_bind. unfold mkdir. rewrite joinpath_plain, has_nul_false by assumption.
  cbn [do_unit run]. rewrite exec_mkdir_new by auto. 
  assert (E : exec (CMkdir (dir ++ [n])) (with_folder dir n w) = (RUnit, with_folder dir n w)).
  { assert (HF : entry_at (dir ++ [n]) (with_folder dir n w) = Some EDir).
    { unfold with_folder. destruct H as [H|H]; rewrite H; [|exact H]. unfold entry_at, set_entry. cbn [with_fs w_fs]. apply fs_get_set_same. }
    rewrite exec_mkdir_new; [unfold with_folder at 1; rewrite HF; reflexivity| |auto].
    intros d Hd. unfold with_folder. destruct H as [H|H]; rewrite H; [|apply T; exact Hd]. unfold entry_at, set_entry. cbn [with_fs w_fs].
    rewrite fs_get_set. destruct (path_eqb d (dir ++ [n])); [reflexivity|apply T; exact Hd]. }
  rewrite E. reflexivity.
Qed.
Lemma parent_file dir n x : parent (dir ++ [n; x]) = dir ++ [n].
Proof. unfold parent. change [n; x] with ([n] ++ [x]). rewrite app_assoc. apply removelast_last. Qed.
Lemma file_not_folder (dir : path) n x : dir ++ [n; x] <> dir ++ [n].
Proof. intros H. apply app_inv_head in H. discriminate. Qed.
Lemma on_the_way_file dir n x d : on_the_way (dir ++ [n; x]) d -> d <> dir ++ [n; x] -> on_the_way (dir ++ [n]) d.
Proof.
  change [n; x] with ([n] ++ [x]). rewrite app_assoc. intros H N. apply on_the_way_snoc in H as [H|H]; [exact H|contradiction].
Qed.
Lemma disk_new_file dir n x t w : disk w -> dir_there (dir ++ [n]) w -> entry_at (dir ++ [n; x]) w = None -> disk (put (dir ++ [n; x]) t w).
Proof.
  intros D T H. apply (disk_add (dir ++ [n; x]) (EFile t) w D H); [destruct dir; discriminate|]. intros d Hd Nd. apply T. eapply on_the_way_file; eassumption.
Qed.
Section New.
  Context {rt : PyRt}.
  Theorem new_graph dir n w : plain n -> no_nul dir -> disk w -> dir_there dir w ->
    (entry_at (dir ++ [n]) w = None \/ entry_at (dir ++ [n]) w = Some EDir) ->
    (forall p, In p (files_of (graph_at dir n)) -> entry_at p w = None) ->
    exists w', run (get_new_gdbms_file_paths n dir) w = (Ok (graph_at dir n), w') /\
      stored (graph_at dir n) empty_graph w' /\ disk w' /\ entry_at (dir ++ [n]) w' = Some EDir /\
      (forall p, p <> dir ++ [n] -> ~ In p (files_of (graph_at dir n)) -> entry_at p w' = entry_at p w) /\
      w_in w' = w_in w /\ w_out w' = w_out w ++ [py "Using " ++ n].
  Proof.
    intros P NN D T HF HN. set (g := graph_at dir n).
    set (w0 := with_folder dir n w).
    assert (F0 : entry_at (dir ++ [n]) w0 = Some EDir).
    { unfold w0, with_folder. destruct HF as [H|H]; rewrite H; [|exact H]. unfold entry_at, set_entry. cbn [with_fs w_fs]. apply fs_get_set_same. }
    assert (O0 : forall p, p <> dir ++ [n] -> entry_at p w0 = entry_at p w).
    { intros p Hp. unfold w0, with_folder. destruct (entry_at (dir ++ [n]) w); [reflexivity|]. unfold entry_at, set_entry. cbn [with_fs w_fs]. apply fs_get_set_other. exact Hp. }
    assert (T0 : dir_there dir w0).
    { intros d Hd. destruct (path_eq_dec d (dir ++ [n])) as [->|N]; [exact F0|]. rewrite O0 by exact N. apply T. exact Hd. }
    assert (T1 : forall w1, (forall p, ~ In p (files_of g) -> entry_at p w1 = entry_at p w0) -> dir_there (dir ++ [n]) w1).
    { intros w1 E1 d Hd. rewrite E1.
      - apply on_the_way_snoc in Hd as [Hd| ->]; [apply T0; exact Hd|exact F0].
      - intros I. destruct Hd as (_ & q & Hq). apply (f_equal (@List.length pystr)) in Hq. rewrite !app_length in Hq. cbn [List.length] in Hq.
        unfold g, files_of, graph_at in I. cbn [database_fp indexes_fp wiggle_number_fp In] in I.
        destruct I as [<-|[<-|[<-|[]]]]; rewrite app_length in Hq; cbn [List.length] in Hq; lia. }
    assert (D0 : disk w0).
    { unfold w0, with_folder. destruct HF as [H|H]; rewrite H; [|exact D]. apply disk_add; [exact D|exact H|destruct dir; discriminate|].
      intros d Hd Nd. apply T. apply on_the_way_snoc in Hd as [Hd|Hd]; [exact Hd|contradiction]. }
    assert (N0 : forall p, In p (files_of g) -> entry_at p w0 = None).
    { intros p Hp. rewrite O0; [apply HN; exact Hp|]. intros ->. unfold g, files_of, graph_at in Hp. cbn [database_fp indexes_fp wiggle_number_fp In] in Hp.
      destruct Hp as [Hp|[Hp|[Hp|[]]]]; exact (file_not_folder _ _ _ Hp). }
    destruct (three_distinct dir n) as (X1 & X2 & X3). fold g in X1, X2, X3.
    set (tD := dump_text Compact (VDict [])). set (tI := dump_text Compact new_index).
    set (w1 := put (database_fp g) tD w0). set (w2 := put (indexes_fp g) tI w1). set (w3 := put (wiggle_number_fp g) (py "0") w2).
    assert (I1 : In (database_fp g) (files_of g)) by (left; reflexivity).
    assert (I2 : In (indexes_fp g) (files_of g)) by (right; left; reflexivity).
    assert (I3 : In (wiggle_number_fp g) (files_of g)) by (right; right; left; reflexivity).
    assert (E1 : forall p, ~ In p (files_of g) -> entry_at p w1 = entry_at p w0).
    { intros p Hp. apply get_put_other. intros ->. contradiction. }
    assert (E2 : forall p, ~ In p (files_of g) -> entry_at p w2 = entry_at p w0).
    { intros p Hp. rewrite <- E1 by exact Hp. apply get_put_other. intros ->. contradiction. }
    assert (E3 : forall p, ~ In p (files_of g) -> entry_at p w3 = entry_at p w0).
    { intros p Hp. rewrite <- E2 by exact Hp. apply get_put_other. intros ->. contradiction. }
    assert (NI : entry_at (indexes_fp g) w1 = None) by (unfold entry_at, w1; rewrite <- (N0 _ I2); apply get_put_other; auto).
    assert (NW : entry_at (wiggle_number_fp g) w2 = None).
    { rewrite <- (N0 _ I3). unfold w2, w1. unfold entry_at. etransitivity; [apply get_put_other; auto|]. apply get_put_other; auto. }
    assert (FF : forall w4, (forall p, ~ In p (files_of g) -> entry_at p w4 = entry_at p w0) -> entry_at (dir ++ [n]) w4 = Some EDir).
    { intros w4 E4. rewrite E4; [exact F0|]. intros Hp. unfold g, files_of, graph_at in Hp. cbn [database_fp indexes_fp wiggle_number_fp In] in Hp.
      destruct Hp as [Hp|[Hp|[Hp|[]]]]; exact (file_not_folder _ _ _ Hp). }
    assert (TT : forall w4, (forall p, ~ In p (files_of g) -> entry_at p w4 = entry_at p w0) -> dir_there dir w4).
    { intros w4 E4 d Hd. apply (T1 w4 E4). apply on_the_way_snoc. left. exact Hd. }
    exists (say [py "Using " ++ n] w3).
    assert (R : run (get_new_gdbms_file_paths n dir) w = (Ok g, say [py "Using " ++ n] w3)).
    { unfold get_new_gdbms_file_paths. rewrite run_catch, run_bind. unfold create_new_database.
      rewrite create_file_first by assumption. fold w0. rewrite db_file_plain by exact P. fold g. fold tD.
      rewrite create_file_new; [|exact P|exact NN|exact T0|exact F0|apply parent_file|apply N0; exact I1]. fold w1.
      rewrite run_bind. unfold create_new_indexes_file. rewrite idx_file_plain by exact P. fold g. fold tI.
      rewrite create_file_new; [|exact P|exact NN|apply TT; exact E1|apply FF; exact E1|apply parent_file|exact NI]. fold w2.
      rewrite run_bind. unfold create_new_wiggle_number_file. rewrite wn_file_plain by exact P. fold g.
      rewrite create_file_new; [|exact P|exact NN|apply TT; exact E2|apply FF; exact E2|apply parent_file|exact NW]. fold w3.
      reflexivity. }
    split; [exact R|].
    assert (S3 : same_disk w3 (say [py "Using " ++ n] w3)) by reflexivity.
    split.
    - constructor.
      + exact (three_distinct dir n).
      + constructor; [constructor|reflexivity| |]; cbn [empty_graph g_db g_ix g_next]; try constructor; cbn; try constructor; try (intros ? []).
      + unfold file_is. cbn [say w_fs]. change (dump_text Indent4 (VDict (g_db empty_graph))) with tD.
        unfold w3, w2, w1. etransitivity; [apply get_put_other; auto|]. etransitivity; [apply get_put_other; auto|]. apply get_put_same.
      + exists Compact. unfold file_is. cbn [say w_fs]. change (dump_text Compact (index_val (g_ix empty_graph))) with tI.
        unfold w3, w2. etransitivity; [apply get_put_other; auto|]. apply get_put_same.
      + unfold file_is. cbn [say w_fs]. change (str_of_Z (g_next empty_graph)) with (py "0"). unfold w3. apply get_put_same.
    - split; [|split; [|split; [|split]]].
      + eapply disk_same; [exact S3|]. unfold w3. apply disk_new_file; [|apply T1; exact E2|exact NW].
        unfold w2. apply disk_new_file; [|apply T1; exact E1|exact NI].
        unfold w1. apply disk_new_file; [exact D0|apply T1; reflexivity|apply N0; exact I1].
      + apply FF. exact E3.
      + intros p Hp Hq. change (entry_at p (say [py "Using " ++ n] w3)) with (entry_at p w3). rewrite E3 by exact Hq. apply O0. exact Hp.
      + cbn [say w_in]. unfold w3, w2, w1, w0, with_folder. rewrite !put_in. destruct (entry_at (dir ++ [n]) w); reflexivity.
      + cbn [say w_out]. unfold w3, w2, w1, w0, with_folder. rewrite !put_out. destruct (entry_at (dir ++ [n]) w); reflexivity.
  Qed.
End New.

(** ** a name that is taken *)
Lemma disk_above p e w : disk w -> entry_at p w = Some e -> forall d, on_the_way p d -> d <> p -> entry_at d w = Some EDir.
Proof. intros D H d Hd Nd. eapply (disk_tree w D); eassumption. Qed.
Theorem taken_graph dir n w t : plain n -> no_nul dir -> disk w ->
  entry_at (database_fp (graph_at dir n)) w = Some (EFile t) ->
  run (get_new_gdbms_file_paths n dir) w = (Err ValueError, say [taken_msg n] w).
Proof.
  intros P NN D H. unfold get_new_gdbms_file_paths. rewrite run_catch, run_bind. unfold create_new_database, create_file. rewrite db_file_plain by exact P.
  assert (T : dir_there (dir ++ [n]) w).
  { intros d Hd. apply (disk_above _ _ _ D H).
    - cbn [graph_at database_fp]. match goal with |- on_the_way (dir ++ [n; ?x]) _ => change [n; x] with ([n] ++ [x]) end. rewrite app_assoc. apply on_the_way_snoc. left. exact Hd.
    - intros ->. destruct Hd as (_ & q & Hq). apply (f_equal (@List.length pystr)) in Hq. cbn [graph_at database_fp] in Hq. rewrite !app_length in Hq. cbn [List.length] in Hq. lia. }
  rewrite run_bind. unfold mkdir. rewrite joinpath_plain, has_nul_false by assumption. cbn [do_unit run].
  assert (F : entry_at (dir ++ [n]) w = Some EDir) by (apply T; apply on_the_way_snoc; auto).
  rewrite exec_mkdir_new; [|intros d Hd; apply T; apply on_the_way_snoc; auto|auto]. unfold with_folder. rewrite F. cbn [run].
  rewrite run_bind. cbn [do_bool run exec]. unfold fs_is_file. unfold entry_at in H. rewrite H. cbn [run is_value_error].
  reflexivity.
Qed.

(** ** deleting *)
Lemma fnmatch_star s : fnmatch [42%N] s = true.
Proof. unfold fnmatch. cbn [List.length glob_parse N.eqb Pos.eqb glob_items]. induction s as [|c s IH]; [reflexivity|]. cbn [orb]. exact IH. Qed.
Lemma no_magic n : no_wildcard n -> has_magic n = false.
Proof.
  intros H. apply not_true_iff_false. unfold has_magic. rewrite existsb_exists. intros (c & Hc & E). destruct (H c Hc) as (H1 & H2 & H3). lia.
Qed.
Lemma glob_dirs_plain p pre w : Forall no_wildcard p -> run (glob_dirs false [pre] p) w = (Ok [pre ++ p], w).
Proof.
  revert pre; induction p as [|c p IH]; intros pre H; cbn [glob_dirs]; [rewrite app_nil_r; reflexivity|]. inversion H; subst.
  rewrite no_magic by assumption. cbn [map]. rewrite IH by assumption. rewrite <- app_assoc. reflexivity.
Qed.
Lemma is_hidden_visible n : visible n -> is_hidden n = false.
Proof. intros H. destruct n as [|c n]; [reflexivity|]. cbn [is_hidden]. apply N.eqb_neq. intros ->. exact (H n eq_refl). Qed.
Lemma glob_star_run p w : Forall no_wildcard p -> is_a_dir p w -> (forall n, In n (children p (w_fs w)) -> visible n) ->
  run (glob_star p) w = (Ok (map (fun n => p ++ [n]) (children p (w_fs w))), w).
Proof.
  intros H D V. unfold glob_star. rewrite run_bind, glob_dirs_plain by exact H. cbn [app concat_io]. rewrite run_bind.
  unfold glob1. rewrite run_bind. unfold list_or_empty. rewrite run_catch. cbn [do_names run exec]. rewrite (proj2 (fs_is_dir_spec p w) D). cbn [run].
  rewrite run_bind. cbn [run]. rewrite app_nil_r. f_equal. f_equal. f_equal.
  assert (E : forall l, (forall n, In n l -> visible n) -> List.filter (fun n => (is_hidden [42%N] || negb (is_hidden n)) && fnmatch [42%N] n) l = l).
  { induction l as [|n l IH]; intros HV; [reflexivity|]. cbn [List.filter]. rewrite fnmatch_star, (is_hidden_visible n) by (apply HV; left; reflexivity).
    cbn [is_hidden N.eqb Pos.eqb negb orb andb]. f_equal. apply IH. intros m Hm. apply HV. right. exact Hm. }
  apply E. exact V.
Qed.
Lemma fs_del_keys p f q : In q (map fst (fs_del p f)) <-> In q (map fst f) /\ q <> p.
Proof.
  induction f as [|[r e] f IH]; cbn [fs_del map fst In]; [tauto|]. destruct (path_eqb p r) eqn:E.
  - apply path_eqb_eq in E. subst r. rewrite IH. split; [tauto|]. intros [[->|H] N]; [congruence|tauto].
  - cbn [map fst In]. rewrite IH. split; [|tauto]. intros [<-|H]; [|tauto]. split; [auto|]. intros ->. rewrite path_eqb_refl in E. discriminate.
Qed.
Lemma fs_del_nodup p f : NoDup (map fst f) -> NoDup (map fst (fs_del p f)).
Proof.
  induction f as [|[r e] f IH]; cbn [fs_del map fst]; intros H; [constructor|]. inversion H; subst. destruct (path_eqb p r); [auto|]. cbn [map fst]. constructor; [|auto].
  rewrite fs_del_keys. tauto.
Qed.
Lemma remove_all_run l w : NoDup l -> (forall p, In p l -> exists t, entry_at p w = Some (EFile t)) -> NoDup (map fst (w_fs w)) ->
  exists f', run (remove_all l) w = (Ok tt, with_fs w f') /\ NoDup (map fst f') /\ (forall p, In p l -> fs_get p f' = None) /\ (forall p, ~ In p l -> fs_get p f' = fs_get p (w_fs w)).
Proof.
  revert w; induction l as [|q l IH]; intros w ND HF HN; cbn [remove_all].
  - exists (w_fs w). cbn [run]. rewrite world_eta. repeat split; auto. intros p [].
  - inversion ND as [|? ? N1 N2]; subst. destruct (HF q (or_introl eq_refl)) as (t & Ht). unfold entry_at in Ht.
    rewrite run_bind. cbn [do_unit run exec]. rewrite Ht. cbn [run].
    destruct (IH (with_fs w (fs_del q (w_fs w)))) as (f' & R & A & B & C); [exact N2| |apply fs_del_nodup; exact HN|].
    + intros p Hp. unfold entry_at. cbn [with_fs w_fs]. rewrite fs_get_del, path_eqb_neq by (intros ->; contradiction). apply HF. right. exact Hp.
    + exists f'. rewrite R. cbn [with_fs w_fs] in *. split; [reflexivity|]. split; [exact A|]. split.
      * intros p [<-|Hp]; [|apply B; exact Hp]. rewrite C by exact N1. rewrite fs_get_del, path_eqb_refl. reflexivity.
      * intros p Hp. rewrite C by (intros X; apply Hp; right; exact X). rewrite fs_get_del, path_eqb_neq; [reflexivity|]. intros ->. apply Hp. left. reflexivity.
Qed.
Theorem delete_missing n dir w : ~ is_a_dir (joinpath dir (n ++ py "/")) w -> run (delete_gdbms n dir) w = (Err PlainException, w).
Proof.
  intros H. unfold delete_gdbms. rewrite run_bind. cbn [do_bool run exec]. destruct (fs_is_dir (joinpath dir (n ++ py "/")) (w_fs w)) eqn:E; [|reflexivity].
  apply fs_is_dir_spec in E. contradiction.
Qed.
Theorem delete_graph n dir w : plain n -> disk w -> Forall no_wildcard (dir ++ [n]) -> entry_at (dir ++ [n]) w = Some EDir ->
  (forall m e, entry_at (dir ++ [n; m]) w = Some e -> visible m /\ exists t, e = EFile t) ->
  exists w', run (delete_gdbms n dir) w = (Ok 0%Z, w') /\ disk w' /\ w_in w' = w_in w /\ w_out w' = w_out w /\
    entry_at (dir ++ [n]) w' = None /\ (forall p, inside (dir ++ [n]) p -> entry_at p w' = None) /\
    (forall p, p <> dir ++ [n] -> ~ inside (dir ++ [n]) p -> entry_at p w' = entry_at p w).
Proof.
  intros P D NW HD HF. unfold delete_gdbms. rewrite joinpath_slash by exact P. set (d := dir ++ [n]) in *.
  assert (HC : forall m, In m (children d (w_fs w)) <-> exists e, entry_at (d ++ [m]) w = Some e) by (intros m; apply children_spec, D).
  assert (EQ : forall m, dir ++ [n; m] = d ++ [m]) by (intros m; unfold d; rewrite <- app_assoc; reflexivity).
  assert (HF' : forall m, In m (children d (w_fs w)) -> visible m /\ exists t, entry_at (d ++ [m]) w = Some (EFile t)).
  { intros m Hm. apply HC in Hm as (e & He). destruct (HF m e) as (V & t & ->); [rewrite EQ; exact He|]. eauto. }
  rewrite run_bind. cbn [do_bool run exec]. rewrite (proj2 (fs_is_dir_spec d w) (or_intror HD)). cbn [negb].
  rewrite run_bind, glob_star_run; [|exact NW|right; exact HD|intros m Hm; apply HF'; exact Hm].
  set (l := map (fun m => d ++ [m]) (children d (w_fs w))).
  assert (NL : NoDup l).
  { unfold l. apply FinFun.Injective_map_NoDup; [|apply children_nodup, D]. intros a b E. apply app_inv_head in E. congruence. }
  destruct (remove_all_run l w NL) as (f' & R & A & B & C); [|apply D|].
  { intros p Hp. apply in_map_iff in Hp as (m & <- & Hm). apply HF'. exact Hm. }
  rewrite run_bind, R. rewrite run_bind. cbn [do_unit run exec with_fs w_fs].
  assert (Ld : ~ In d l). { intros X. apply in_map_iff in X as (m & X & _). apply (f_equal (@List.length pystr)) in X. rewrite app_length in X. cbn [List.length] in X. lia. }
  rewrite (C d Ld). unfold entry_at in HD. rewrite HD.
  assert (Lm : forall m, In (d ++ [m]) l <-> In m (children d (w_fs w))).
  { intros m. unfold l. rewrite in_map_iff. split; [|intros H; exists m; auto]. intros (m' & E & H). apply app_inv_head in E. inversion E; subst. exact H. }
  assert (CE : children d f' = []).
  { destruct (children d f') as [|m ms] eqn:E; [reflexivity|]. exfalso. assert (Hm : In m (children d f')) by (rewrite E; left; reflexivity).
    apply children_spec in Hm as (e & He); [|exact A]. destruct (in_dec path_eq_dec (d ++ [m]) l) as [I|N]; [rewrite (B _ I) in He; discriminate|].
    rewrite C in He by exact N. apply N, Lm, HC. eauto. }
  rewrite CE. cbn [run]. eexists. split; [reflexivity|].
  assert (G : forall p, fs_get p (fs_del d f') = if path_eqb p d then None else fs_get p f') by (intros p; apply fs_get_del).
  assert (Deep : forall p, inside d p -> fs_get p f' = None).
  { intros p (q & Nq & ->). destruct q as [|m q]; [congruence|]. destruct q as [|m' q].
    - destruct (in_dec path_eq_dec (d ++ [m]) l) as [I|N]; [apply B; exact I|]. rewrite C by exact N.
      destruct (fs_get (d ++ [m]) (w_fs w)) as [e|] eqn:E; [|reflexivity]. exfalso. apply N, Lm, HC. eauto.
    - assert (N : ~ In (d ++ m :: m' :: q) l).
      { intros X. apply in_map_iff in X as (m2 & X & _). apply app_inv_head in X. discriminate. }
      rewrite C by exact N. destruct (fs_get (d ++ m :: m' :: q) (w_fs w)) as [e|] eqn:E; [|reflexivity]. exfalso.
      assert (Dm : entry_at (d ++ [m]) w = Some EDir).
      { eapply (disk_tree w D); [exact E| |].
        - split; [destruct d; discriminate|]. exists (m' :: q). rewrite <- app_assoc. reflexivity.
        - intros X. apply app_inv_head in X. discriminate. }
      destruct (HF m EDir) as (_ & t & X); [rewrite EQ; exact Dm|discriminate]. }
  assert (Out : forall p, p <> d -> ~ inside d p -> fs_get p (fs_del d f') = fs_get p (w_fs w)).
  { intros p Np Ni. rewrite G, path_eqb_neq by exact Np. apply C. intros X. apply in_map_iff in X as (m & <- & _). apply Ni. exists [m]. split; [discriminate|reflexivity]. }
  assert (In' : forall p, inside d p -> fs_get p (fs_del d f') = None).
  { intros p Hp. rewrite G. destruct (path_eqb p d); [reflexivity|]. apply Deep. exact Hp. }
  unfold entry_at. cbn [w_fs with_fs w_in w_out]. repeat split; auto.
  - apply fs_del_nodup. exact A.
  - unfold entry_at. cbn [w_fs with_fs]. intros p x e Hp Hx Nx.
    destruct (path_eq_dec p d) as [->|Np]; [rewrite G, path_eqb_refl in Hp; discriminate|].
    destruct (fs_get p (w_fs w)) as [e0|] eqn:E0.
    2:{ destruct (path_eqb p d) eqn:X; rewrite G, X in Hp; [discriminate|].
        destruct (in_dec path_eq_dec p l) as [I|N]; [rewrite (B _ I) in Hp; discriminate|]. rewrite (C _ N), E0 in Hp. discriminate. }
    assert (Ni : ~ inside d p) by (intros I; rewrite (In' _ I) in Hp; discriminate).
    rewrite Out.
    + eapply (disk_tree w D); eassumption.
    + intros ->. apply Ni. destruct Hx as (_ & q & ->). exists q. split; [|reflexivity]. intros ->. rewrite app_nil_r in Np. congruence.
    + intros (q & Nq & ->). apply Ni. destruct Hx as (_ & q' & ->). exists (q ++ q'). split; [destruct q; [congruence|discriminate]|]. rewrite app_assoc. reflexivity.
  - unfold entry_at. cbn [w_fs with_fs]. rewrite Out; [apply D| |].
    + unfold d. destruct dir; discriminate.
    + intros (q & Nq & X). symmetry in X. apply app_eq_nil in X as [_ X]. contradiction.
  - rewrite G, path_eqb_refl. reflexivity.
Qed.

(** ** the dialogue ends: every round reads a line *)
Inductive no_input {A} : io A -> Prop :=
| ni_ret : forall a, no_input (Ret a)
| ni_throw : forall e, e <> OutOfFuel -> no_input (Throw e)
| ni_do : forall c k, c <> CInput -> (forall r, r <> RErr OutOfFuel -> no_input (k r)) -> no_input (Do c k).
Lemma exec_no_fuel c w : fst (exec c w) <> RErr OutOfFuel.
Proof.
  destruct c; cbn [exec]; repeat (match goal with |- context [match ?x with _ => _ end] => destruct x eqn:? end); try discriminate.
  cbn [fst]. intros H. inversion H; subst.
  match goal with H : mkdirs _ _ = _ |- _ => revert H end. generalize (w_fs w). induction (prefixes p) as [|q l IH]; intros f0; cbn [mkdirs]; [discriminate|].
  destruct (fs_get q f0) as [[|t]|]; [apply IH|discriminate|apply IH].
Qed.
Lemma exec_keeps_in c w : c <> CInput -> w_in (snd (exec c w)) = w_in w.
Proof. intros N. destruct c; try congruence; cbn [exec]; repeat (match goal with |- context [match ?x with _ => _ end] => destruct x end); reflexivity. Qed.
Lemma no_input_run {A} (m : io A) w : no_input m -> w_in (snd (run m w)) = w_in w /\ fst (run m w) <> Err OutOfFuel.
Proof.
  intros H; revert w; induction H as [a|e N|c k N H IH]; intros w; cbn [run].
  - split; [reflexivity|discriminate].
  - split; [reflexivity|cbn [fst]; congruence].
  - pose proof (exec_no_fuel c w) as F. pose proof (exec_keeps_in c w N) as K. destruct (exec c w) as [r w1]. cbn [fst snd] in *. destruct (IH r F w1) as [A1 A2]. split; congruence.
Qed.
Lemma ni_bind {A B} (m : io A) (f : A -> io B) : no_input m -> (forall a, no_input (f a)) -> no_input (io_bind m f).
Proof. induction 1; intros F; cbn [io_bind]; [apply F|constructor; assumption|constructor; auto]. Qed.
Lemma ni_catch {A} (m : io A) h : no_input m -> (forall e m', h e = Some m' -> no_input m') -> no_input (io_catch m h).
Proof. induction 1; intros F; cbn [io_catch]; [constructor| |constructor; auto]. destruct (h e) eqn:E; [eapply F; exact E|constructor; assumption]. Qed.
Lemma ni_unit c : c <> CInput -> no_input (do_unit c).
Proof. intros N. constructor; [exact N|]. intros r Hr. destruct r; constructor; congruence. Qed.
Lemma ni_bool c : c <> CInput -> no_input (do_bool c).
Proof. intros N. constructor; [exact N|]. intros r Hr. destruct r; constructor; congruence. Qed.
Lemma ni_names c : c <> CInput -> no_input (do_names c).
Proof. intros N. constructor; [exact N|]. intros r Hr. destruct r; constructor; congruence. Qed.
Lemma ni_create_file dir n f t : no_input (create_file dir n f t).
Proof.
  unfold create_file, mkdir. apply ni_bind; [destruct (has_nul _); [constructor; discriminate|apply ni_unit; discriminate]|]. intros _.
  apply ni_bind; [apply ni_bool; discriminate|]. intros []; [constructor; discriminate|].
  repeat (apply ni_bind; [apply ni_unit; discriminate|intros]). constructor.
Qed.
Lemma ni_new n dir : no_input (get_new_gdbms_file_paths n dir).
Proof.
  unfold get_new_gdbms_file_paths. apply ni_catch.
  - repeat (apply ni_bind; [apply ni_create_file|intros]). apply ni_bind; [apply ni_unit; discriminate|]. intros. constructor.
  - intros e m' H. destruct (is_value_error e) eqn:E; [|discriminate]. injection H as <-. apply (ni_bind (do_unit _)); [apply ni_unit; discriminate|].
    intros. constructor. intros ->. discriminate.
Qed.
Lemma input_run w : run (do_text CInput) w = match w_in w with [] => (Err EOFError, w) | s :: r => (Ok s, {| w_fs := w_fs w; w_in := r; w_out := w_out w |}) end.
Proof. cbn [do_text run exec]. destruct (w_in w); reflexivity. Qed.
Theorem create_ends fuel dir w : List.length (w_in w) < fuel -> fst (run (create_new_dbms fuel dir) w) <> Err OutOfFuel.
Proof.
  revert w; induction fuel as [|fuel IH]; intros w H; [lia|]. cbn [create_new_dbms]. rewrite run_bind, input_run. destruct (w_in w) as [|s r] eqn:E; [discriminate|].
  cbn [List.length] in H. set (w1 := {| w_fs := w_fs w; w_in := r; w_out := w_out w |}). rewrite run_bind.
  match goal with |- context [run ?m w1] => assert (NI : no_input m) end.
  { apply ni_catch; [apply ni_bind; [apply ni_new|intros; constructor]|]. intros e m' H'. destruct (is_value_error e); [|discriminate]. injection H' as <-.
    apply (ni_bind (do_unit _)); [apply ni_unit; discriminate|]. intros. constructor. }
  match goal with |- context [run ?m w1] => destruct (no_input_run m w1 NI) as [K F]; destruct (run m w1) as [[[g|]|e] w2] end; cbn [fst snd] in *.
  - discriminate.
  - apply IH. rewrite K. cbn [w1 w_in]. lia.
  - congruence.
Qed.
Lemma ni_display dir : no_input (get_and_display_available_dbms dir).
Proof.
  assert (P : forall l, no_input (print_all l)) by (induction l as [|t l IH]; cbn [print_all]; [constructor|apply ni_bind; [apply ni_unit; discriminate|intros; exact IH]]).
  unfold get_and_display_available_dbms. apply ni_bind.
  - unfold list_existing_dbms. apply ni_bind; [apply ni_names; discriminate|]. intros names. apply ni_bind; [|intros; constructor].
    induction names as [|x l IH]; cbn [filter_io]; [constructor|]. apply ni_bind.
    + apply ni_bind; [apply ni_bool; discriminate|intros; constructor].
    + intros b. apply ni_bind; [exact IH|intros; constructor].
  - intros [|x l]; [constructor|]. apply ni_bind; [apply ni_unit; discriminate|]. intros _. apply ni_bind; [apply P|]. intros _. apply ni_bind; [apply ni_unit; discriminate|intros; constructor].
Qed.
Theorem existing_ends fuel folder dir w : S (List.length (w_in w)) < fuel -> fst (run (get_existing_gdbms fuel folder dir) w) <> Err OutOfFuel.
Proof.
  revert w; induction fuel as [|fuel IH]; intros w H; [lia|]. cbn [get_existing_gdbms]. rewrite run_bind.
  destruct (no_input_run _ w (ni_display folder)) as [K F]. destruct (run (get_and_display_available_dbms folder) w) as [[c|e] w1]; cbn [fst snd] in *; [|congruence].
  assert (N : fst (run (let! _ := do_unit (CPrint (py "There are no databases, please create a new database.")) in create_new_dbms fuel dir) w1) <> Err OutOfFuel).
  { rewrite run_bind. cbn [do_unit run exec]. apply create_ends. cbn [w_in]. rewrite K. lia. }
  destruct c as [[|kv d]|]; [exact N| |exact N].
  rewrite run_bind, input_run, K. destruct (w_in w) as [|s r] eqn:E; [discriminate|]. cbn [List.length] in H.
  destruct (d_get s (kv :: d)) as [n|].
  - rewrite run_bind. set (w2 := {| w_fs := w_fs w1; w_in := r; w_out := w_out w1 |}).
    assert (NE : forall f, no_input (existing_file f)).
    { intros f. apply ni_bind; [apply ni_bool; discriminate|]. intros []; constructor. discriminate. }
    match goal with |- context [run ?m w2] => assert (NI : no_input m) end.
    { apply ni_catch; [repeat (apply ni_bind; [apply NE|intros]); constructor|]. intros e m' H'. destruct e; try discriminate. injection H' as <-.
      apply (ni_bind (do_unit _)); [apply ni_unit; discriminate|]. intros. constructor. }
    match goal with |- context [run ?m w2] => destruct (no_input_run m w2 NI) as [K2 F2]; destruct (run m w2) as [[[g|]|e] w3] end; cbn [fst snd] in *.
    + discriminate.
    + apply IH. rewrite K2. cbn [w2 w_in]. lia.
    + congruence.
  - rewrite run_bind. cbn [do_unit run exec]. apply IH. cbn [w_in]. lia.
Qed.
Theorem select_ends fuel folder w : List.length (w_in w) < fuel -> fst (run (select_gdbms fuel folder) w) <> Err OutOfFuel.
Proof.
  intros H. unfold select_gdbms. rewrite run_bind, input_run. destruct (w_in w) as [|s r] eqn:E; [discriminate|]. cbn [List.length] in H.
  destruct (_ || _); [apply existing_ends|apply create_ends]; cbn [w_in]; lia.
Qed.

Theorem chosen_plain f folder w l g w' : disk w -> is_a_dir folder w -> menu folder w l -> l <> [] -> (forall n, In n l -> plain n) ->
  run (get_existing_gdbms f folder folder) w = (Ok g, w') ->
  same_disk w w' /\ exists i n, i < 26 /\ nth_error l i = Some n /\ g = graph_at folder n /\
    forall p, In p (files_of g) -> exists t, entry_at p w = Some (EFile t).
Proof.
  intros D H M NE P R. destruct (chosen f folder folder w l g w' D H M NE R) as (SD & i & n & Hi & Hn & E & F). split; [exact SD|].
  exists i, n. repeat split; auto. rewrite E. apply paths_for_plain. apply P. eapply nth_error_In. exact Hn.
Qed.
Section NewDialogue.
  Context {rt : PyRt}.
  Theorem new_by_dialogue f dir n c r w : plain n -> no_nul dir -> disk w -> dir_there dir w ->
    (entry_at (dir ++ [n]) w = None \/ entry_at (dir ++ [n]) w = Some EDir) ->
    (forall p, In p (files_of (graph_at dir n)) -> entry_at p w = None) ->
    c <> py "y" -> c <> py "yes" -> w_in w = c :: n :: r ->
    exists w', run (select_gdbms (S f) dir) w = (Ok (graph_at dir n), w') /\
      stored (graph_at dir n) empty_graph w' /\ w_in w' = r /\
      (forall p, p <> dir ++ [n] -> ~ In p (files_of (graph_at dir n)) -> entry_at p w' = entry_at p w).
  Proof.
    intros P NN D T HF HN C1 C2 E. unfold select_gdbms. rewrite run_bind, input_run, E.
    destruct (str_eqb c (py "y")) eqn:E1; [apply str_eqb_eq in E1; contradiction|]. destruct (str_eqb c (py "yes")) eqn:E2; [apply str_eqb_eq in E2; contradiction|].
    cbn [orb]. cbn [create_new_dbms]. rewrite run_bind, input_run. cbn [w_in w_fs w_out].
    set (w1 := {| w_fs := w_fs w; w_in := r; w_out := w_out w |}). assert (SD : same_disk w w1) by reflexivity.
    destruct (new_graph dir n w1 P NN (disk_same _ _ SD D) T HF HN) as (w' & R & S & _ & _ & K & I & _).
    exists w'. split; [|split; [exact S|split; [exact I|exact K]]].
    rewrite run_bind, run_catch, run_bind, R. reflexivity.
  Qed.
End NewDialogue.

(** ** a checker for concrete disks *)
Fixpoint once (l : list path) : bool := match l with [] => true | p :: l' => negb (existsb (path_eqb p) l') && once l' end.
Definition disk_check (w : world) : bool :=
  once (map fst (w_fs w)) &&
  forallb (fun pe => forallb (fun d => path_eqb d (fst pe) || match fs_get d (w_fs w) with Some EDir => true | _ => false end) (prefixes (fst pe))) (w_fs w) &&
  match fs_get [] (w_fs w) with None => true | _ => false end.
Lemma disk_check_ok w : disk_check w = true -> disk w.
Proof.
  unfold disk_check. rewrite !andb_true_iff. intros [[H1 H2] H3].
  assert (ND : NoDup (map fst (w_fs w))).
  { clear - H1. induction (map fst (w_fs w)) as [|p l IH]; [constructor|]. cbn [once] in H1. apply andb_prop in H1 as [A B]. constructor; [|auto].
    intros X. apply negb_true_iff in A. assert (Y : existsb (path_eqb p) l = true); [|congruence]. apply existsb_exists. exists p. split; [exact X|apply path_eqb_refl]. }
  constructor; [exact ND| |].
  - intros p d e He Hd Nd. unfold entry_at in *. rewrite forallb_forall in H2. apply fs_get_In in He; [|exact ND]. specialize (H2 _ He). cbn [fst] in H2.
    rewrite forallb_forall in H2. apply prefixes_spec in Hd. specialize (H2 d Hd). rewrite path_eqb_neq in H2 by exact Nd. cbn [orb] in H2.
    destruct (fs_get d (w_fs w)) as [[|t]|]; congruence.
  - unfold entry_at. destruct (fs_get [] (w_fs w)); congruence.
Qed.
