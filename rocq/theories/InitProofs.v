(** Proofs about "kmcpy init". *)
From Coq Require Import QArith Ascii.
From Verif Require Import Py PyLemmas Json ConfigModel ConfigSpec ConfigProofs CallbackModel CallbackSpec CallbackProofs InitModel InitSpec.
Local Open Scope string_scope.

(** ** Directories *)
Lemma walk_snoc (fs : disk) r x : forall a, walk fs a (r ++ [x]) = match walk fs a r with
  | Err e => Err e | Ok (File _) => Err OSError
  | Ok Dir => match dget fs (a ++ r ++ [x])%list with None => Err FileNotFoundError | Some n => Ok n end end.
Proof.
  induction r as [|y r IH]; intros a.
  - cbn. destruct (dget fs (a ++ [x])%list) as [[]|]; done.
  - cbn [app walk]. destruct (dget fs (a ++ [y])%list) as [[|c]|] eqn:E; [|destruct r; done|done].
    rewrite IH. destruct (walk fs (a ++ [y])%list r) as [[]|]; try done. by rewrite <-!app_assoc.
Qed.
Lemma at_snoc (fs : disk) p x : at_path fs (p ++ [x]) = match at_path fs p with
  | Err e => Err e | Ok (File _) => Err OSError
  | Ok Dir => match dget fs (p ++ [x])%list with None => Err FileNotFoundError | Some n => Ok n end end.
Proof. exact (walk_snoc fs p x []). Qed.
Lemma at_error fs p e : at_path fs p = Err e -> e = FileNotFoundError \/ e = OSError.
Proof.
  induction p as [|x p IH] using rev_ind; [done|]. rewrite at_snoc. destruct (at_path fs p) as [[|]|e']; [|by intros [= <-]; right|intros [= <-]; by apply IH].
  destruct (dget fs _); [done|]. intros [= <-]. by left.
Qed.
Lemma at_dir fs p : proper_disk fs -> p <> [] -> dget fs p = Some Dir -> at_path fs p = Ok Dir.
Proof.
  intros Hp. induction p as [|x p IH] using rev_ind; [done|]. intros _ H. rewrite at_snoc. destruct (Hp _ _ _ H) as [->|Hd]; [cbn in *; by rewrite H|].
  destruct p as [|y p]; [cbn in *; by rewrite H|]. by rewrite IH, H.
Qed.
Lemma at_some fs p n : proper_disk fs -> p <> [] -> dget fs p = Some n -> at_path fs p = Ok n.
Proof.
  intros Hp. destruct p as [|x p _] using rev_ind; [done|]. intros _ H. rewrite at_snoc. destruct (Hp _ _ _ H) as [->|Hd]; [cbn in *; by rewrite H|].
  destruct p as [|y p]; [cbn in *; by rewrite H|]. rewrite (at_dir fs (y :: p)) by done. by rewrite H.
Qed.
Lemma at_ok fs p n : at_path fs p = Ok n -> p = [] /\ n = Dir \/ p <> [] /\ dget fs p = Some n.
Proof.
  destruct p as [|x p _] using rev_ind; [intros [= <-]; by left|]. rewrite at_snoc. destruct (at_path fs p) as [[|]|]; try done. destruct (dget fs _); [|done].
  intros [= <-]. right. split; [by destruct p|done].
Qed.
(** A file is in the way. *)
Definition blocked (fs : disk) (p : location) : Prop := exists q r text, q <> [] /\ p = (q ++ r)%list /\ dget fs q = Some (File text).
Lemma blocked_snoc fs p x : blocked fs (p ++ [x]) <-> blocked fs p \/ exists text, dget fs (p ++ [x])%list = Some (File text).
Proof.
  split.
  - intros (q & r & c & Hq & E & H). destruct r as [|y r _] using rev_ind.
    + rewrite app_nil_r in E. subst q. right. by exists c.
    + rewrite app_assoc in E. apply app_inj_tail in E as [-> ->]. left. by exists q, r, c.
  - intros [(q & r & c & Hq & -> & H)|(c & H)].
    + exists q, (r ++ [x])%list, c. by rewrite app_assoc.
    + exists (p ++ [x])%list, [], c. rewrite app_nil_r. split; [by destruct p|done].
Qed.
Lemma dir_not_blocked fs p : at_path fs p = Ok Dir -> ~ blocked fs p.
Proof.
  induction p as [|x p IH] using rev_ind.
  - intros _ (q & r & c & Hq & E & _). by destruct q.
  - rewrite at_snoc, blocked_snoc. destruct (at_path fs p) as [[|]|]; try done. destruct (dget fs _) as [n|] eqn:E; [|done]. intros [= ->] [H|(c & H)]; [by apply IH|congruence].
Qed.
Lemma os_error_blocked fs p : at_path fs p = Err OSError -> blocked fs p.
Proof.
  induction p as [|x p IH] using rev_ind; [done|]. rewrite at_snoc, blocked_snoc. destruct (at_path fs p) as [[|c]|e] eqn:E.
  - by destruct (dget fs _).
  - intros _. left. apply at_ok in E as [[_ ?]|[Hne H]]; [done|]. exists p, [], c. by rewrite app_nil_r.
  - intros [= ->]. left. by apply IH.
Qed.
Definition made (fs fs' : disk) (p : location) : Prop :=
  forall q, dget fs' q = match dget fs q with Some n => Some n | None => if decide (q <> [] /\ q `prefix_of` p) then Some Dir else None end.
Lemma made_proper fs fs' p : proper_disk fs -> ~ blocked fs p -> made fs fs' p -> proper_disk fs'.
Proof.
  intros Hp Hb Hm q x n H. rewrite Hm in H. destruct (dget fs (q ++ [x])%list) as [n'|] eqn:E.
  - destruct (Hp _ _ _ E) as [->|Hd]; [by left|]. right. by rewrite Hm, Hd.
  - destruct (decide (_ /\ _)) as [[_ (r & ->)]|]; [|done]. destruct q as [|y q]; [by left|]. right. rewrite Hm.
    destruct (dget fs (y :: q)) as [[|c]|] eqn:E2; [done| |].
    + destruct Hb. exists (y :: q), ([x] ++ r)%list, c. by rewrite app_assoc.
    + rewrite decide_True; [done|]. split; [done|]. exists ([x] ++ r)%list. by rewrite app_assoc.
Qed.
Lemma made_dir fs fs' p : proper_disk fs -> ~ blocked fs p -> made fs fs' p -> at_path fs' p = Ok Dir.
Proof.
  intros Hp Hb Hm. destruct (decide (p = [])) as [->|Hne]; [done|]. apply at_dir; [by eapply made_proper|done|]. rewrite Hm.
  destruct (dget fs p) as [[|c]|] eqn:E; [done| |].
  - destruct Hb. exists p, [], c. by rewrite app_nil_r.
  - rewrite decide_True; [done|]. by split.
Qed.
Lemma mkdirs_dir rp fs : at_path fs (rev rp) = Ok Dir -> mkdirs rp fs = (fs, Ok tt).
Proof.
  intros H. destruct rp as [|x rq]; [done|]. cbn [mkdirs]. assert (Ho : os_mkdir fs (x :: rq) = Err FileExistsError).
  { cbn [rev] in H. rewrite at_snoc in H. cbn [os_mkdir]. destruct (at_path fs (rev rq)) as [[|]|]; try done. cbn [rev]. by destruct (dget fs _). }
  rewrite Ho. unfold or_is_dir, is_dir. by rewrite H.
Qed.
Lemma mkdirs_spec rp fs : proper_disk fs ->
  (~ blocked fs (rev rp) /\ exists fs', mkdirs rp fs = (fs', Ok tt) /\ made fs fs' (rev rp)) \/ (blocked fs (rev rp) /\ exists e, mkdirs rp fs = (fs, Err e)).
Proof.
  intros Hp. induction rp as [|x rq IH].
  - left. split; [intros (q & r & c & Hq & E & _); by destruct q|]. exists fs. split; [done|]. intros q. destruct (dget fs q); [done|].
    rewrite decide_False; [done|]. intros [Hq (r & E)]. by destruct q.
  - cbn [rev]. cbn [mkdirs]. destruct (at_path fs (rev rq)) as [[|c]|e] eqn:E.
    + destruct (dget fs (rev rq ++ [x])%list) as [n|] eqn:E2.
      * assert (Ho : os_mkdir fs (x :: rq) = Err FileExistsError) by (cbn [os_mkdir rev]; by rewrite E, E2). rewrite Ho. unfold or_is_dir, is_dir. cbn [rev]. rewrite at_snoc, E, E2.
        destruct n as [|c].
        -- left. split; [rewrite blocked_snoc; intros [H|(c & H)]; [by apply dir_not_blocked in E|congruence]|]. exists fs. split; [done|]. intros q. destruct (dget fs q) eqn:Eq; [done|].
           rewrite decide_False; [done|]. intros [Hq (r & Er)].
           (* every prefix of an existing directory exists *)
           assert (Hall : forall p, at_path fs p = Ok Dir -> forall q r, q <> [] -> p = (q ++ r)%list -> dget fs q <> None).
           { clear. induction p as [|y p IH] using rev_ind; intros H q r Hq E; [by destruct q|]. rewrite at_snoc in H. destruct (at_path fs p) as [[|]|] eqn:Ep; try done.
             destruct (dget fs (p ++ [y])%list) as [n|] eqn:En; [|done]. destruct r as [|z r _] using rev_ind.
             - rewrite app_nil_r in E. subst q. congruence.
             - rewrite app_assoc in E. apply app_inj_tail in E as [-> ->]. eapply IH; done. }
           eapply (Hall (rev rq ++ [x])%list); [rewrite at_snoc, E, E2; done|exact Hq|exact Er|done].
        -- right. split; [apply blocked_snoc; right; by exists c|by eexists].
      * assert (Ho : os_mkdir fs (x :: rq) = Ok (dset fs (rev rq ++ [x])%list Dir)) by (cbn [os_mkdir rev]; by rewrite E, E2). rewrite Ho. left.
        assert (Hnb : ~ blocked fs (rev rq)) by (by apply dir_not_blocked). split; [rewrite blocked_snoc; intros [H|(c & H)]; [done|congruence]|].
        eexists. split; [reflexivity|]. intros q. rewrite dget_dset. destruct (decide (q = rev rq ++ [x])%list) as [->|Hne].
        -- rewrite E2. rewrite decide_True; [done|]. split; [by destruct (rev rq)|done].
        -- destruct (dget fs q) eqn:Eq; [done|]. rewrite decide_False; [done|]. intros [Hq (r & Er)]. destruct r as [|z r _] using rev_ind; [rewrite app_nil_r in Er; congruence|].
           rewrite app_assoc in Er. apply app_inj_tail in Er as [Er _].
           assert (Hall : forall p, at_path fs p = Ok Dir -> forall q r, q <> [] -> p = (q ++ r)%list -> dget fs q <> None).
           { clear. induction p as [|y p IH] using rev_ind; intros H q r Hq E; [by destruct q|]. rewrite at_snoc in H. destruct (at_path fs p) as [[|]|] eqn:Ep; try done.
             destruct (dget fs (p ++ [y])%list) as [n|] eqn:En; [|done]. destruct r as [|z r _] using rev_ind.
             - rewrite app_nil_r in E. subst q. congruence.
             - rewrite app_assoc in E. apply app_inj_tail in E as [-> ->]. eapply IH; done. }
           eapply Hall; [exact E|exact Hq|exact Er|done].
    + assert (Ho : os_mkdir fs (x :: rq) = Err OSError) by (cbn [os_mkdir rev]; by rewrite E). rewrite Ho. unfold or_is_dir, is_dir. cbn [rev]. rewrite at_snoc, E.
      right. split; [|by eexists]. apply blocked_snoc. left. apply at_ok in E as [[_ ?]|[Hne H]]; [done|]. exists (rev rq), [], c. by rewrite app_nil_r.
    + assert (Ho : os_mkdir fs (x :: rq) = Err e) by (cbn [os_mkdir rev]; by rewrite E). rewrite Ho. destruct (at_error _ _ _ E) as [-> | ->].
      * destruct IH as [[Hnb (fs1 & -> & Hm)]|[Hb (e & ->)]].
        2:{ right. split; [apply blocked_snoc; by left|by eexists]. }
        assert (E2 : dget fs (rev rq ++ [x])%list = None).
        { destruct (dget fs _) eqn:E2; [|done]. destruct (Hp _ _ _ E2) as [Er|Hd]; [rewrite Er in E; done|]. destruct (rev rq) as [|y l]; [done|]. rewrite (at_dir fs (y :: l)) in E; done. }
        assert (Hpre : ~ (rev rq ++ [x])%list `prefix_of` rev rq).
        { intros (r & Er). apply (f_equal length) in Er. rewrite !app_length in Er. cbn in Er. lia. }
        assert (E3 : dget fs1 (rev rq ++ [x])%list = None) by (rewrite Hm, E2, decide_False; [done|by intros [_ ?]]).
        assert (Ho' : os_mkdir fs1 (x :: rq) = Ok (dset fs1 (rev rq ++ [x])%list Dir)) by (cbn [os_mkdir rev]; by rewrite (made_dir fs fs1 (rev rq) Hp Hnb Hm), E3).
        rewrite Ho'. left. split; [rewrite blocked_snoc; intros [H|(c & H)]; [done|congruence]|]. eexists. split; [reflexivity|]. intros q. rewrite dget_dset.
        destruct (decide (q = rev rq ++ [x])%list) as [->|Hne].
        -- rewrite E2. rewrite decide_True; [done|]. split; [by destruct (rev rq)|done].
        -- rewrite Hm. destruct (dget fs q) eqn:Eq; [done|].
           destruct (decide (q <> [] /\ q `prefix_of` rev rq)) as [[Hq (r & Er)]|Hn].
           ++ rewrite decide_True; [done|]. split; [done|]. exists (r ++ [x])%list. by rewrite Er, <-app_assoc.
           ++ rewrite decide_False; [done|]. intros [Hq (r & Er)]. apply Hn. split; [done|]. destruct r as [|z r _] using rev_ind; [rewrite app_nil_r in Er; congruence|].
              rewrite app_assoc in Er. apply app_inj_tail in Er as [Er _]. by exists r.
      * unfold or_is_dir, is_dir. cbn [rev]. rewrite at_snoc, E. right. split; [apply blocked_snoc; left; by apply os_error_blocked|by eexists].
Qed.

Lemma above_snoc q p x : above q (p ++ [x]) <-> q <> [] /\ q `prefix_of` p.
Proof.
  split.
  - intros [Hq (r & Hr & E)]. split; [done|]. destruct r as [|y r _] using rev_ind; [done|]. rewrite app_assoc in E. apply app_inj_tail in E as [-> _]. by exists r.
  - intros [Hq (r & ->)]. split; [done|]. exists (r ++ [x])%list. rewrite app_assoc. split; [by destruct r|done].
Qed.
Lemma write_cases p force fs : proper_disk fs ->
  (can_be_written fs p force /\ exists fs', write_template p force fs = (fs', Ok p) /\ only_written fs fs' p build_template)
  \/ (~ can_be_written fs p force /\ exists e, write_template p force fs = (fs, Err e)).
Proof.
  intros Hp. destruct p as [|x p _] using rev_ind.
  { right. split; [by intros [? _]|]. unfold write_template. cbn [rev tail mkdirs os_mkdir]. unfold or_is_dir. cbn. destruct force; by eexists. }
  unfold write_template. rewrite rev_app_distr. cbn [rev app tail]. destruct (mkdirs_spec (rev p) fs Hp) as [[Hnb (fs1 & E & Hm)]|[Hb (e & ->)]].
  2:{ right. split; [|by eexists]. intros (_ & H & _). rewrite rev_involutive in Hb. destruct Hb as (q & r & c & Hq & -> & Hc). eapply H; [|exact Hc]. apply above_snoc. split; [done|]. by exists r. }
  rewrite E. rewrite rev_involutive in *.
  assert (Hpre : ~ (p ++ [x])%list `prefix_of` p).
  { intros (r & Er). apply (f_equal length) in Er. rewrite !app_length in Er. cbn in Er. lia. }
  assert (Hd : at_path fs1 p = Ok Dir) by (by eapply made_dir). assert (E1 : dget fs1 (p ++ [x])%list = dget fs (p ++ [x])%list).
  { rewrite Hm. destruct (dget fs _); [done|]. rewrite decide_False; [done|by intros [_ ?]]. }
  assert (Hsame : forall n, dget fs (p ++ [x])%list = Some n -> fs1 = fs).
  { intros n Hn. assert (Ha : at_path fs p = Ok Dir).
    { destruct (Hp _ _ _ Hn) as [->|Hdir]; [done|]. destruct p; [done|]. by apply at_dir. }
    pose proof (mkdirs_dir (rev p) fs ltac:(by rewrite rev_involutive)) as E'. rewrite E in E'. by injection E'. }
  assert (Hnf : forall q text, above q (p ++ [x]) -> dget fs q <> Some (File text)).
  { intros q c Hq Hc. apply above_snoc in Hq as [Hq (r & ->)]. apply Hnb. by exists q, r, c. }
  unfold exists_at, write_text. rewrite rev_app_distr. cbn [rev app]. rewrite rev_involutive, Hd, at_snoc, Hd, E1.
  unfold can_be_written. destruct (dget fs (p ++ [x])%list) as [[|c]|] eqn:En.
  - rewrite (Hsame _ eq_refl). right. split; [by intros (_ & _ & ?)|]. destruct force; by eexists.
  - destruct force; cbn [negb andb].
    + left. split; [split; [by destruct p|done]|]. eexists. split; [reflexivity|]. rewrite (Hsame _ eq_refl) in *. unfold only_written. rewrite dget_dset_eq. split; [done|].
      assert (Hne : forall q, above q (p ++ [x]) -> q <> (p ++ [x])%list) by (intros q Hq ->; by apply above_snoc in Hq as [_ ?]).
      split; [|split].
      * intros q Hq. rewrite dget_dset_ne by (intros <-; by apply (Hne _ Hq)). rewrite Hm. destruct (dget fs q) as [[|c']|] eqn:Eq; [done|by apply Hnf in Eq|]. apply above_snoc in Hq. by rewrite decide_True.
      * intros q Hq _. by rewrite dget_dset_ne by congruence.
      * intros q n Hq Hn. by rewrite dget_dset_ne by congruence.
    + right. split; [by intros (_ & _ & ?)|]. rewrite (Hsame _ eq_refl). by eexists.
  - cbn [andb]. left. split; [split; [by destruct p|done]|]. eexists. split; [reflexivity|]. unfold only_written. rewrite dget_dset_eq. split; [done|].
    assert (Hne : forall q, above q (p ++ [x]) -> q <> (p ++ [x])%list) by (intros q Hq ->; by apply above_snoc in Hq as [_ ?]).
    split; [|split].
    + intros q Hq. rewrite dget_dset_ne by (intros <-; by apply (Hne _ Hq)). rewrite Hm. destruct (dget fs q) as [[|c']|] eqn:Eq; [done|by apply Hnf in Eq|]. apply above_snoc in Hq. by rewrite decide_True.
    + intros q Hq Hna. rewrite dget_dset_ne by congruence. rewrite Hm. destruct (dget fs q); [done|]. rewrite decide_False; [done|]. by rewrite <-(above_snoc q p x).
    + intros q n Hq Hn. rewrite dget_dset_ne by congruence. by rewrite Hm, Hn.
Qed.
Lemma written_proper fs fs' p text : proper_disk fs -> only_written fs fs' p text -> can_be_written fs p true -> proper_disk fs'.
Proof.
  intros Hp (H1 & H2 & H3 & H4) (Hne & Hf & Hd) q x n Hn. destruct (decide (q = [])) as [|Hq]; [by left|]. right.
  destruct (decide ((q ++ [x])%list = p)) as [<-|Hqp].
  - apply H2. split; [done|]. by exists [x].
  - destruct (dget fs (q ++ [x])%list) as [n'|] eqn:E.
    + destruct (Hp _ _ _ E) as [?|Hdir]; [done|]. destruct (decide (q = p)) as [->|Hqp']; [by rewrite Hdir in Hd|]. by apply H4.
    + destruct (decide (q = p)) as [->|Hqp'].
      * exfalso. rewrite H3 in Hn; [congruence|done|]. intros [_ (r & Hr & E')]. apply (f_equal length) in E'. rewrite !app_length in E'. cbn in E'. lia.
      * destruct (decide (q `prefix_of` p)) as [(r & ->)|Hnp].
        -- apply H2. split; [done|]. exists r. split; [|done]. intros ->. by rewrite app_nil_r in Hqp'.
        -- exfalso. rewrite H3 in Hn; [congruence|done|]. intros [_ (r & Hr & ->)]. apply Hnp. exists ([x] ++ r)%list. by rewrite app_assoc.
Qed.

(** ** The text *)
Lemma join_lines_joined l : join_lines l = joined (String newline "") l.
Proof. induction l as [|x l IH]; [done|]. destruct l as [|y l]; [done|]. change (join_lines (x :: y :: l)) with (x ++ String newline (join_lines (y :: l))). by rewrite IH. Qed.
Lemma lines_of l : l <> [] -> Forall (without newline) l -> split_all newline (join_lines l) = l.
Proof. intros H1 H2. rewrite join_lines_joined. by apply split_all_joined. Qed.
Lemma logical_app l1 l2 : logical (l1 ++ l2) = (logical l1 ++ logical l2)%list.
Proof. induction l1 as [|s l1 IH]; [done|]. cbn [app logical]. destruct (indentation s) as [n r]. destruct (_ || _); [done|]. cbn. by rewrite IH. Qed.
Definition plain_line (s : string) : bool := negb (existsb (Ascii.eqb newline) (list_ascii_of_string s)).
Lemma plain_lines l : forallb plain_line l = true -> Forall (without newline) l.
Proof.
  rewrite forallb_forall, Forall_forall. intros H s Hs Hin. apply elem_of_list_In, H in Hs. unfold plain_line in Hs. apply negb_true_iff in Hs. rewrite <-not_true_iff_false in Hs. apply Hs.
  apply existsb_exists. exists newline. split; [by apply elem_of_list_In|]. by apply Ascii.eqb_eq.
Qed.
Lemma writable_without c a : visible c = false -> writable a -> without c a.
Proof. intros Hc Ha. induction a as [|x a IH]; [apply without_nil|]. unfold writable in Ha. cbn [list_ascii_of_string forallb] in Ha. apply andb_prop in Ha as [H1 H2]. apply without_cons. split; [|by apply IH]. intros ->. congruence. Qed.
Lemma quoted_flow a : writable a -> flow (String double_quote (a ++ String double_quote "")) = Some (JStr a).
Proof.
  intros H. unfold flow. cbn [starts]. assert (scalar (String double_quote (a ++ String double_quote "")) = Some (JStr a)) as Hs.
  { unfold scalar; cbn [starts]; rewrite Ascii.eqb_refl. rewrite split_first_app by (by apply writable_without). by rewrite H. }
  exact Hs.
Qed.
Lemma block_entry f ind s k v j l : split_first ":" s = Some (k, v) -> String.eqb (trim_left v) "" = false -> starts space v = true -> flow (trim_left v) = Some j ->
  block (S f) ind ((ind, s) :: l) = match block f ind l with Some (d, l3) => Some ((k, j) :: d, l3) | None => None end.
Proof. intros H1 H2 H3 H4. cbn [block]. rewrite Nat.ltb_irrefl, Nat.eqb_refl. cbn [negb]. rewrite H1, H2, H3, H4. done. Qed.
Lemma block_section f ind m s k v t l d : split_first ":" s = Some (k, v) -> String.eqb (trim_left v) "" = true -> Nat.ltb ind m = true -> block f m ((m, t) :: l) = Some (d, []) ->
  block (S f) ind ((ind, s) :: (m, t) :: l) = match block f ind [] with Some (d', l3) => Some ((k, JObj d) :: d', l3) | None => None end.
Proof. intros H1 H2 H3 H4. cbn [block]. fold block. rewrite Nat.ltb_irrefl, Nat.eqb_refl. cbn [negb]. rewrite H1, H2, H3, H4. done. Qed.
Definition line_at (k a : string) : string := "    " ++ k ++ ": " ++ String double_quote (a ++ String double_quote "").
Lemma template_lines_with a b c : template_with a b c = join_lines (firstn 16 template_lines ++ [line_at "structure_file" a] ++ firstn 1 (skipn 17 template_lines) ++ [line_at "event_file" b]
  ++ firstn 1 (skipn 19 template_lines) ++ [line_at "model_file" c] ++ skipn 21 template_lines).
Proof. reflexivity. Qed.
Lemma line_without k a : without newline ("    " ++ k ++ ": " ++ String double_quote "") -> without newline a -> without newline (line_at k a).
Proof.
  unfold line_at. intros Hk Ha. apply without_app in Hk as [H1 Hk]. apply without_app in Hk as [H2 Hk]. apply without_app in Hk as [H3 Hk]. apply without_cons in Hk as [H4 H5].
  apply without_app. split; [done|]. apply without_app. split; [done|]. apply without_app. split; [done|]. apply without_cons. split; [done|]. apply without_app. split; [done|]. by apply without_cons.
Qed.
Definition rest_of_template : list (nat * string) := Eval vm_compute in logical (skipn 21 template_lines).
Lemma read_template_with a b c : writable a -> writable b -> writable c -> read_yaml (template_with a b c) = Ok (filled (with_files a b c)).
Proof.
  intros Ha Hb Hc.
  assert (Hn : forall a k, writable a -> forallb plain_line ["    " ++ k ++ ": " ++ String double_quote ""] = true -> Forall (without newline) [line_at k a]).
  { intros a' k Hw Hk. constructor; [|constructor]. apply line_without; [|by apply writable_without]. by apply plain_lines, Forall_inv in Hk. }
  unfold read_yaml. rewrite template_lines_with, lines_of; [|done|].
  2:{ repeat (apply Forall_app; split); first [by apply Hn|apply plain_lines; vm_compute; reflexivity]. }
  rewrite !logical_app.
  change (logical (firstn 16 template_lines)) with [(0, "kmc:"); (2, "type: default"); (2, "default:")]%nat.
  change (logical [line_at "structure_file" a]) with [(4, "structure_file: " ++ String double_quote (a ++ String double_quote ""))]%nat.
  change (logical [line_at "event_file" b]) with [(4, "event_file: " ++ String double_quote (b ++ String double_quote ""))]%nat.
  change (logical [line_at "model_file" c]) with [(4, "model_file: " ++ String double_quote (c ++ String double_quote ""))]%nat.
  change (logical (firstn 1 (skipn 17 template_lines))) with (@nil (nat * string)). change (logical (firstn 1 (skipn 19 template_lines))) with (@nil (nat * string)).
  assert (logical (skipn 21 template_lines) = rest_of_template) as -> by (vm_compute; reflexivity). cbn [app length].
  set (sa := "structure_file: " ++ String double_quote (a ++ String double_quote "")). set (sb := "event_file: " ++ String double_quote (b ++ String double_quote "")). set (sc := "model_file: " ++ String double_quote (c ++ String double_quote "")).
  set (d := map (fun k => (k, template_value k)) (skipn 3 template_fields)).
  assert (Hrest : forall n, (22 <= n)%nat -> block n 4 rest_of_template = Some (d, [])).
  { intros n Hm. replace n with (22 + (n - 22))%nat by lia. generalize (n - 22)%nat. intros m. vm_compute. reflexivity. }
  assert (Hin : forall n, (25 <= n)%nat -> block n 4 ((4%nat, sa) :: (4%nat, sb) :: (4%nat, sc) :: rest_of_template)
      = Some (("structure_file", JStr a) :: ("event_file", JStr b) :: ("model_file", JStr c) :: d, [])).
  { intros n Hm. destruct n as [|n]; [lia|]. destruct n as [|n]; [lia|]. destruct n as [|n]; [lia|].
    rewrite (block_entry _ _ sa "structure_file" (String space (String double_quote (a ++ String double_quote ""))) (JStr a)); [|reflexivity|reflexivity|reflexivity|by apply quoted_flow].
    rewrite (block_entry _ _ sb "event_file" (String space (String double_quote (b ++ String double_quote ""))) (JStr b)); [|reflexivity|reflexivity|reflexivity|by apply quoted_flow].
    rewrite (block_entry _ _ sc "model_file" (String space (String double_quote (c ++ String double_quote ""))) (JStr c)); [|reflexivity|reflexivity|reflexivity|by apply quoted_flow].
    rewrite Hrest by lia. done. }
  change (length rest_of_template) with 21%nat.
  clearbody sa sb sc.
  rewrite (block_section _ 0 2 "kmc:" "kmc" "" "type: default" _ [("type", JStr "default"); ("default", JObj (("structure_file", JStr a) :: ("event_file", JStr b) :: ("model_file", JStr c) :: d))]); [|reflexivity|reflexivity|reflexivity|].
  2:{ rewrite (block_entry _ _ "type: default" "type" " default" (JStr "default")) by reflexivity.
      rewrite (block_section _ 2 4 "default:" "default" "" sa _ _ eq_refl eq_refl eq_refl (Hin 25%nat ltac:(lia))). reflexivity. }
  reflexivity.
Qed.
Lemma read_template : read_yaml build_template = Ok (filled template_value).
Proof. vm_compute. reflexivity. Qed.

(** ** The configuration *)
Lemma filled_new fmt v : fmt <> UnknownFormat -> from_file fmt (filled v) None None = configuration_new None None (map (fun k => (k, V (v k))) template_fields).
Proof. intros H. destruct fmt; [reflexivity|reflexivity|done]. Qed.
Lemma dget_filled v k : k ∈ template_fields -> dget (map (fun k => (k, V (v k))) template_fields) k = Some (V (v k)).
Proof.
  generalize template_fields. intros l. induction l as [|x l IH]; intros H; [by apply not_elem_of_nil in H|]. cbn. destruct (decide (k = x)) as [->|Hne].
  - done.
  - apply elem_of_cons in H as [?|H]; [done|]. by apply IH.
Qed.
Lemma template_has s k : k ∈ field_names s -> k ∈ template_fields.
Proof.
  revert k. apply Forall_forall. apply (bool_decide_eq_true_1 (Forall _ _)). destruct s; vm_compute; reflexivity.
Qed.
Lemma template_only k : k ∈ template_fields -> k ∈ system_field_names \/ k ∈ runtime_field_names.
Proof.
  intros H. rewrite <-elem_of_app. revert k H. apply Forall_forall. apply (bool_decide_eq_true_1 (Forall _ _)). vm_compute. reflexivity.
Qed.
Definition given_values (v : string -> json) (k : string) : option value := Some (V (v k)).
Lemma choose_filled s v k : k ∈ field_names s -> choose (map (fun k => (k, V (v k))) template_fields) (defaults s) k = given_values v k.
Proof. intros H. unfold choose. by rewrite dget_filled by (by eapply template_has). Qed.
Lemma keys_filled v : dkeys (map (fun k => (k, V (v k))) template_fields) = template_fields.
Proof. reflexivity. Qed.
Lemma filled_accepted fmt v : fmt <> UnknownFormat ->
  ((exists c, from_file fmt (filled v) None None = Ok c) <-> valid_system (given_values v) /\ valid_runtime (given_values v)).
Proof.
  intros H. rewrite filled_new by done. rewrite (accepted_lemma None None (defaults Sys) (defaults Run)) by (by left).
  rewrite (valid_ext Sys _ (given_values v)) by (intros; by apply choose_filled). rewrite (valid_ext Run _ (given_values v)) by (intros; by apply choose_filled).
  rewrite keys_filled. split; [by intros (_ & _ & ? & ?)|]. intros [? ?]. split; [right; by right|]. split; [exact template_only|done].
Qed.
Lemma filled_values fmt v c : from_file fmt (filled v) None None = Ok c -> has_values c v.
Proof.
  intros H. assert (Hf : fmt <> UnknownFormat) by (by intros ->). rewrite filled_new in H by done.
  destruct (routed_lemma None None (defaults Sys) (defaults Run) _ _ ltac:(by left) ltac:(by left) H) as (s & r & -> & [Hs _] & [Hr _] & Gs & Gr).
  exists s, r. split; [done|]. split; [done|]. split; [done|]. split; intros k Hk; [rewrite Gs by done|rewrite Gr by done]; by apply (choose_filled Sys) || by apply (choose_filled Run).
Qed.
Lemma yaml_format p : yaml_name p -> detect_config_file_format (match rev p with x :: _ => x | [] => "" end) = Yaml.
Proof.
  intros (q & stem & ext & -> & Hs & He). rewrite rev_app_distr. cbn [rev app]. unfold detect_config_file_format, suffix.
  change ("." ++ ext) with (String "." ext). rewrite split_last_app by (destruct He as [-> | ->]; unfold without; apply (bool_decide_eq_true_1 (_ ∉ _)); vm_compute; reflexivity).
  destruct (String.eqb_spec stem ""); [done|]. destruct He as [-> | ->]; reflexivity.
Qed.
Lemma load_written rj fs p text v : proper_disk fs -> yaml_name p -> dget fs p = Some (File text) -> read_yaml text = Ok (filled v) ->
  valid_system (given_values v) -> valid_runtime (given_values v) -> exists c, load_configuration rj fs p = Ok c /\ has_values c v.
Proof.
  intros Hp Hy Hf Hr H1 H2. unfold load_configuration. rewrite yaml_format by done.
  rewrite (at_some fs p (File text)) by (done || by destruct Hy as (q & ? & ? & -> & _), q). cbn [rbind]. rewrite Hr. cbn [rbind].
  destruct (proj2 (filled_accepted Yaml v ltac:(done)) (conj H1 H2)) as [c Hc]. exists c. split; [done|]. by eapply filled_values.
Qed.
Lemma with_files_valid a b c : valid_system (given_values (with_files a b c)) /\ valid_runtime (given_values (with_files a b c)).
Proof.
  assert (H : valid_system (given_values template_value) /\ valid_runtime (given_values template_value)).
  { apply (filled_accepted Yaml); [done|]. eexists. vm_compute. reflexivity. }
  exact H.
Qed.
Lemma template_valid : valid_system (given_values template_value) /\ valid_runtime (given_values template_value).
Proof. apply (filled_accepted Yaml); [done|]. eexists. vm_compute. reflexivity. Qed.
Lemma has_values_field c v k : has_values c v -> k ∈ template_fields -> get_field c k = Ok (V (v k)).
Proof.
  intros (s & r & -> & _ & _ & Hs & Hr) Hk. unfold get_field. destruct (template_only k Hk) as [H|H].
  - rewrite (accessors_table Sys k H). cbn. apply attr_ok. by apply Hs.
  - rewrite (accessors_table Run k H). cbn. apply attr_ok. by apply Hr.
Qed.
Lemma never_runs {A S K : Type} (load : configuration -> result A) (from_occupations from_state_file : A -> value -> result S) (construct : A -> S -> result K) c v :
  has_values c v -> v "initial_occupations" = JNull -> v "initial_state_file" = JNull -> exists e, from_config load from_occupations from_state_file construct c = Err e.
Proof.
  intros Hv H1 H2. unfold from_config.
  assert (Hk : forall k, bool_decide (k ∈ template_fields) = true -> get_field c k = Ok (V (v k))) by (intros k Hk; apply has_values_field; [done|by apply bool_decide_eq_true_1 in Hk]).
  rewrite (Hk "site_mapping"), (Hk "initial_occupations"), (Hk "initial_state_file") by (vm_compute; reflexivity). rewrite H1, H2. cbn [rbind].
  destruct (is_none _); [by eexists|]. destruct (load c); cbn; by eexists.
Qed.

(** ** The command *)
Lemma main_cases p force fs : proper_disk fs ->
  (can_be_written fs p force /\ exists fs', init_main p force fs = (fs', Ok 0%Z) /\ only_written fs fs' p build_template)
  \/ (~ can_be_written fs p force /\ exists e, init_main p force fs = (fs, Err e)).
Proof. intros Hp. unfold init_main. destruct (write_cases p force fs Hp) as [[H (fs' & -> & Ho)]|[H (e & ->)]]; [left|right]; (split; [done|]); by eexists. Qed.
Lemma main_writes p force fs fs' z : proper_disk fs -> init_main p force fs = (fs', Ok z) -> z = 0%Z /\ only_written fs fs' p build_template.
Proof. intros Hp H. destruct (main_cases p force fs Hp) as [[_ (fs2 & E & Ho)]|[_ (e & E)]]; rewrite E in H; [|done]. by injection H as <- <-. Qed.
Lemma main_iff p force fs : proper_disk fs -> ((exists fs', init_main p force fs = (fs', Ok 0%Z)) <-> can_be_written fs p force).
Proof. intros Hp. destruct (main_cases p force fs Hp) as [[Hc (fs2 & E & Ho)]|[Hc (e & E)]]; rewrite E; (split; [intros [? ?]; done|]); [by eexists|done]. Qed.
Lemma main_fails p force fs fs' e : proper_disk fs -> init_main p force fs = (fs', Err e) -> fs' = fs.
Proof. intros Hp H. destruct (main_cases p force fs Hp) as [[_ (fs2 & E & Ho)]|[_ (e' & E)]]; rewrite E in H; [done|]. by injection H as <- _. Qed.
Lemma main_refuses p fs n : proper_disk fs -> p <> [] -> dget fs p = Some n -> init_main p false fs = (fs, Err FileExistsError).
Proof.
  intros Hp Hne Hn. unfold init_main, write_template. destruct p as [|x p _] using rev_ind; [done|]. rewrite rev_app_distr. cbn [rev app tail].
  assert (Ha : at_path fs p = Ok Dir). { destruct (Hp _ _ _ Hn) as [->|Hdir]; [done|]. destruct p; [done|]. by apply at_dir. }
  rewrite mkdirs_dir by (by rewrite rev_involutive). unfold exists_at. by rewrite (at_some fs _ n).
Qed.
Lemma main_proper p force fs fs' z : proper_disk fs -> init_main p force fs = (fs', Ok z) -> proper_disk fs'.
Proof.
  intros Hp H. destruct (main_writes _ _ _ _ _ Hp H) as [-> Ho]. assert (Hc : can_be_written fs p force) by (apply main_iff; [done|by eexists]).
  eapply written_proper; [done|exact Ho|]. destruct Hc as (H1 & H2 & H3). split; [done|]. split; [done|]. by destruct (dget fs p) as [[]|].
Qed.
Lemma main_loads rj p force fs fs' z : proper_disk fs -> yaml_name p -> init_main p force fs = (fs', Ok z) ->
  exists c, load_configuration rj fs' p = Ok c /\ has_values c template_value.
Proof.
  intros Hp Hy H. pose proof (main_proper _ _ _ _ _ Hp H) as Hp'. destruct (main_writes _ _ _ _ _ Hp H) as [_ [Hf _]].
  destruct template_valid as [H1 H2]. exact (load_written rj fs' p build_template template_value Hp' Hy Hf read_template H1 H2).
Qed.
Lemma edited_loads rj p fs a b c : proper_disk fs -> yaml_name p -> writable a -> writable b -> writable c -> dget fs p = Some (File (template_with a b c)) ->
  exists conf, load_configuration rj fs p = Ok conf /\ has_values conf (with_files a b c).
Proof. intros Hp Hy Ha Hb Hc Hf. destruct (with_files_valid a b c) as [H1 H2]. exact (load_written rj fs p _ _ Hp Hy Hf (read_template_with a b c Ha Hb Hc) H1 H2). Qed.
