(** * Torn: a database file whose rewriting was interrupted *)
From Verif Require Import PyBase BaseFacts Json JsonFacts JsonMore SpecJson FS Store SpecStore SpecCrash.
From Coq Require Import ZifyBool ZifyN ZifyNat.

Section Torn.
  Context {rt : PyRt}.

  (** an object whose last comma is followed by the closing brace *)
  Lemma members_comma st d : dict_ok d -> dict_ser d = true -> forall k x acc f, str_ok k -> val_ok x -> ser x = true ->
    List.length (member st 1 k x ++ more_entries st d ++ [44%N; 125%N]) < f ->
    parse_members f (member st 1 k x ++ more_entries st d ++ [44%N; 125%N]) acc = None.
  Proof.
    induction d as [|[k2 y] d IH]; intros V S k x acc f Kx Vx Sx Hf.
    - cbn [more_entries app] in *. rewrite app_length in Hf. cbn [List.length] in Hf.
      destruct (proj1 (reads_all x Vx) Sx st 1) as [_ Hp].
      assert (Hlm : List.length (member st 1 k x) = List.length (json_str k) + 2 + List.length (fst (dump st 1 x))).
      { unfold member. rewrite !app_length. simpl. lia. }
      destruct f as [|[|f]]; try lia.
      unfold member. rewrite <- !app_assoc. rewrite members_step by auto.
      rewrite skip_ws_head by (apply value_head_app, dump_head; auto; intros ->; discriminate).
      rewrite Hp; [| |lia].
      2:{ apply rest_ok_stop. cbn. auto. }
      cbn [skip_ws lstrip is_ws existsb N.eqb Pos.eqb orb]. reflexivity.
    - pose proof V as V'. change ((k2, y) :: d) with ([(k2, y)] ++ d) in V'. apply dict_ok_app in V' as [V1 V2].
      simpl in S. apply andb_prop in S as [S1 S2].
      destruct (dict_ok_In [(k2, y)] k2 y V1 (or_introl eq_refl)) as [K2 Vy].
      cbn [more_entries] in *. unfold entry_text in *. cbn [fst snd] in *.
      destruct (proj1 (reads_all x Vx) Sx st 1) as [_ Hp].
      assert (Hlm : List.length (member st 1 k x) = List.length (json_str k) + 2 + List.length (fst (dump st 1 x))).
      { unfold member. rewrite !app_length. simpl. lia. }
      rewrite !app_length in Hf.
      destruct f as [|f]; [lia|].
      unfold member at 1. rewrite <- !app_assoc. rewrite members_step by auto.
      rewrite skip_ws_head by (apply value_head_app, dump_head; auto; intros ->; discriminate).
      rewrite Hp; [| |lia].
      2:{ apply rest_ok_stop, item_sep_stop. }
      destruct (skip_item_sep st 1 (member st 1 k2 y ++ more_entries st d ++ [44%N; 125%N])) as (s' & Es & Hws & _).
      rewrite Es. unfold skip_ws at 1. cbn [lstrip is_ws existsb N.eqb Pos.eqb orb].
      rewrite Hws, skip_ws_head.
      2:{ unfold member. rewrite <- !app_assoc. apply json_str_head. }
      apply IH; auto. rewrite !app_length. lia.
  Qed.

  (** the value with every unwritable part replaced by null *)
  Fixpoint fill (v : pyval) : pyval :=
    match v with
    | VOpaque => VNone
    | VList l => VList (map fill l)
    | VDict d => VDict (map (fun kv => (fst kv, fill (snd kv))) d)
    | _ => v
    end.
  Lemma fill_ser v : ser (fill v) = true.
  Proof.
    induction v as [|b|z|t|s|l HR|d HR|] using pyval_ind'; try reflexivity; cbn [fill ser].
    - induction HR; [reflexivity|]. cbn [map forallb]. rewrite H, IHHR. reflexivity.
    - induction HR; [reflexivity|]. cbn [map forallb fst snd]. rewrite H, IHHR. reflexivity.
  Qed.
  Lemma fill_ok v : val_ok v -> val_ok (fill v).
  Proof.
    induction v as [|b|z|t|s|l HR|d HR|] using pyval_ind'; intros V; try assumption; cbn [fill].
    - inv V. constructor. induction HR; [constructor|]. inv H0. constructor; auto.
    - inv V. constructor.
      + clear H1. induction HR; [constructor|]. inv H0. constructor; [cbn; tauto|auto].
      + replace (keys _) with (keys d); [assumption|]. unfold keys. rewrite map_map. reflexivity.
    - constructor.
  Qed.

  Definition ext (o o' : out) : Prop :=
    snd o' = true /\ exists more, fst o' = fst o ++ more /\ (snd o = true -> more = []) /\ (snd o = false -> more <> []).
  Lemma ext_text t : ext (text t) (text t).
  Proof. split; [reflexivity|]. exists []. rewrite app_nil_r. repeat split; auto. discriminate. Qed.
  Lemma ext_seq a a' b b' : ext a a' -> ext b b' -> ext (seq a b) (seq a' b').
  Proof.
    intros (Ha & m & Em & M1 & M2) (Hb & n & En & N1 & N2). rewrite (seq_true a') by auto. split; [exact Hb|].
    cbn [fst]. rewrite Em, En. destruct (snd a) eqn:E.
    - rewrite seq_true by auto. cbn [fst snd]. rewrite M1 by auto. exists n. rewrite app_nil_r, <- app_assoc. auto.
    - rewrite seq_false by auto. exists (m ++ fst b ++ n). rewrite <- app_assoc. split; [reflexivity|].
      rewrite E. split; [discriminate|]. intros _ H. apply app_eq_nil in H as [H _]. apply M2; auto.
  Qed.
  Lemma fill_ext st v : forall lvl, ext (dump st lvl v) (dump st lvl (fill v)).
  Proof.
    induction v as [|b|z|t|s|l HR|d HR|] using pyval_ind'; intros lvl; try apply ext_text.
    - destruct HR as [|x l Hx HR]; [apply ext_text|]. cbn [fill map]. rewrite !dump_list.
      apply ext_seq; [apply ext_text|]. apply ext_seq; [apply Hx|]. apply ext_seq; [|apply ext_text].
      clear Hx. induction HR as [|y l Hy HR IH]; [apply ext_text|]. cbn [map dump_items].
      apply ext_seq; [apply ext_text|]. apply ext_seq; [apply Hy|exact IH].
    - destruct HR as [|[k x] d Hx HR]; [apply ext_text|]. cbn [fill map fst snd]. rewrite !dump_dict. cbn [snd] in Hx.
      apply ext_seq; [apply ext_text|]. apply ext_seq; [apply ext_text|]. apply ext_seq; [apply Hx|]. apply ext_seq; [|apply ext_text].
      clear Hx. induction HR as [|[k2 y] d Hy HR IH]; [apply ext_text|]. cbn [map dump_members fst snd]. cbn [snd] in Hy.
      apply ext_seq; [apply ext_text|]. apply ext_seq; [apply ext_text|]. apply ext_seq; [apply Hy|exact IH].
    - split; [reflexivity|]. exists (py "null"). repeat split; discriminate.
  Qed.

  (** a saved object cut anywhere before its end cannot be read, writable or not *)
  Lemma dict_cut st d t1 t2 : dict_ok d -> dump_text st (VDict d) = t1 ++ t2 -> t2 <> [] \/ dict_ser d = false -> loads t1 = None.
  Proof.
    intros V E H. destruct (fill_ext st (VDict d) 0) as (_ & more & Em & M1 & M2).
    fold (dump_top st (VDict d)) in M1, M2. rewrite dump_ser in M1, M2 by exact V. change (ser (VDict d)) with (dict_ser d) in M1, M2.
    apply (loads_cut st (fill (VDict d)) t1 (t2 ++ more)).
    - apply fill_ok. exact V.
    - apply fill_ser.
    - exact I.
    - unfold dump_text, dump_top in *. rewrite Em, E, <- app_assoc. reflexivity.
    - intros N. apply app_eq_nil in N as [N1 N2]. destruct H as [H|H]; [auto|]. apply M2; auto.
  Qed.

  Lemma app_split {A} (a b x y : list A) : a ++ b = x ++ y -> (exists u, x = a ++ u /\ b = u ++ y) \/ (exists u, a = x ++ u /\ y = u ++ b /\ u <> []).
  Proof.
    revert x; induction a as [|c a IH]; intros x H; cbn [app] in *; [left; exists x; auto|].
    destruct x as [|d x]; cbn [app] in *.
    - right. exists (c :: a). split; [reflexivity|]. split; [auto|discriminate].
    - inv H. apply IH in H2 as [(u & -> & ->)|(u & -> & -> & N)]; [left|right]; exists u; auto.
  Qed.

  Lemma torn_db a b t : dict_ok (a ++ b) -> dict_ser a = true ->
    over (db_text a) (db_text (a ++ b)) t ->
    t = db_text a \/ (t = db_text (a ++ b) /\ dict_ser b = true) \/ loads t = None.
  Proof.
    intros V S (t1 & t2 & E & ->). unfold db_text in *.
    destruct b as [|[k2 y] b].
    { rewrite app_nil_r in E. left. rewrite E, skipn_app, skipn_all2, Nat.sub_diag by lia. reflexivity. }
    pose proof (dict_ok_app _ _ V) as [Va Vb].
    assert (L : List.length (dump_text Indent4 (VDict a)) <= List.length t1 ->
      t1 ++ skipn (List.length t1) (dump_text Indent4 (VDict a)) = dump_text Indent4 (VDict (a ++ (k2, y) :: b)) /\ dict_ser ((k2, y) :: b) = true \/
      loads (t1 ++ skipn (List.length t1) (dump_text Indent4 (VDict a))) = None).
    { intros L. rewrite skipn_all2, app_nil_r by lia.
      destruct t2 as [|c t2].
      - destruct (dict_ser ((k2, y) :: b)) eqn:Sb; [left; split; [rewrite E, app_nil_r; reflexivity|reflexivity]|right].
        eapply dict_cut; [exact V|exact E|]. right. unfold dict_ser in *. rewrite forallb_app, Sb. apply andb_false_r.
      - right. eapply dict_cut; [exact V|exact E|]. left. discriminate. }
    destruct (Nat.le_gt_cases (List.length (dump_text Indent4 (VDict a))) (List.length t1)) as [HL|HL]; [right; auto|clear L].
    destruct a as [|[k x] a].
    - change (dump_text Indent4 (VDict [])) with (py "{}") in *. cbn [app] in E.
      assert (HD : exists u, dump_text Indent4 (VDict ((k2, y) :: b)) = 123%N :: u).
      { unfold dump_text, dump_top. rewrite dump_dict, fst_seq_text. eexists. reflexivity. }
      destruct HD as (u & HD). rewrite HD in E. change (List.length (py "{}")) with 2 in HL.
      destruct t1 as [|c [|c' t1]]; [left; reflexivity| |cbn [List.length] in HL; lia].
      cbn [app] in E. inv E. left. reflexivity.
    - rewrite dump_dict_text in * by auto.
      set (X := [123%N] ++ newline Indent4 1 ++ entry_text Indent4 (k, x) ++ more_entries Indent4 a).
      replace ([123%N] ++ newline Indent4 1 ++ entry_text Indent4 (k, x) ++ more_entries Indent4 a ++ newline Indent4 0 ++ [125%N])
        with (X ++ [10%N; 125%N]) in * by (unfold X; rewrite <- !app_assoc; reflexivity).
      assert (HD : exists u, dump_text Indent4 (VDict (((k, x) :: a) ++ (k2, y) :: b)) = X ++ 44%N :: u).
      { pose proof Va as Va'. change ((k, x) :: a) with ([(k, x)] ++ a) in Va'. apply dict_ok_app in Va' as [V1 V2].
        simpl in S. apply andb_prop in S as [S1 S2].
        destruct (dict_ok_In [(k, x)] k x V1 (or_introl eq_refl)) as [_ Vx].
        destruct (proj1 (reads_all x Vx) S1 Indent4 1) as [Dx _].
        destruct (dump_members_prefix Indent4 a ((k2, y) :: b) V2 S2) as (u & ok & E1 & E2).
        assert (Hu : exists u', u = 44%N :: u').
        { apply (f_equal fst) in E2. cbn [dump_members] in E2. rewrite !fst_seq_text in E2. cbn [fst] in E2. subst u. eexists. reflexivity. }
        destruct Hu as (u' & ->).
        unfold dump_text, dump_top. cbn [app]. rewrite dump_dict, E1. rewrite fst_seq_text, fst_seq_text, (seq_true (dump Indent4 1 x)) by auto.
        cbn [fst]. unfold X, entry_text, member. cbn [fst snd].
        destruct ok; [rewrite seq_true by reflexivity|rewrite seq_false by reflexivity]; cbn [fst snd text];
          eexists; rewrite <- !app_assoc; cbn [app]; rewrite <- ?app_assoc; reflexivity. }
      destruct HD as (u & HD). rewrite HD in E. symmetry in E. rewrite app_length in HL. cbn [List.length] in HL.
      apply app_split in E as [(v & -> & _)|(v & -> & E & Nv)].
      + left. rewrite <- app_assoc. rewrite skipn_app, skipn_all2, Nat.sub_diag by lia. reflexivity.
      + rewrite app_length in HL. destruct v as [|c [|c' v]]; [congruence| |cbn [List.length] in HL; lia].
        cbn [app] in E. inv E. right. right. rewrite <- app_assoc. cbn [app].
        replace (skipn (List.length (X ++ [44%N])) (X ++ [10%N; 125%N])) with [125%N].
        2:{ rewrite skipn_app, skipn_all2 by (rewrite app_length; lia). rewrite app_length.
            replace (List.length X + List.length [44%N] - List.length X) with 1 by (cbn [List.length]; lia). reflexivity. }
        assert (Hk : str_ok k /\ val_ok x /\ dict_ok a).
        { pose proof Va as Va'. change ((k, x) :: a) with ([(k, x)] ++ a) in Va'. apply dict_ok_app in Va' as [V1 V2].
          destruct (dict_ok_In [(k, x)] k x V1 (or_introl eq_refl)) as [? ?]. auto. }
        destruct Hk as (Hk & Vx & V2). simpl in S. apply andb_prop in S as [S1 S2].
        unfold X. rewrite <- !app_assoc. cbn [app]. rewrite loads_head by (split; (reflexivity || discriminate)).
        match goal with |- context [parse_value ?F _] => destruct F as [|f] eqn:EF; [lia|] end.
        cbn [parse_value N.eqb Pos.eqb].
        rewrite skip_ws_newline, skip_ws_head.
        2:{ unfold entry_text, member. rewrite <- !app_assoc. apply json_str_head. }
        unfold entry_text. cbn [fst snd].
        assert (HC : exists c r, member Indent4 1 k x ++ more_entries Indent4 a ++ [44%N; 125%N] = c :: r /\ c <> 125%N).
        { unfold member, json_str. cbn [app]. eexists. eexists. split; [reflexivity|discriminate]. }
        destruct HC as (c & r & HC & Nc). cbn [app] in HC |- *. rewrite HC.
        destruct (N.eqb_spec c 125); [contradiction|]. rewrite <- HC.
        rewrite members_comma; auto.
        cbn [List.length] in EF. rewrite !app_length in *. unfold entry_text in EF. cbn [fst snd List.length] in EF |- *. lia.
  Qed.
End Torn.
