(** Property C80: the table of h264nal-conformance.py. *)
From Coq Require Import NArith List Bool Lia ZifyBool ZifyNat ZifyN String Ascii.
From Verif Require Import Base ToolText PyText Dump DumpProofs SpecNalUnit PropsNalUnit PropsTool PropsToolText Conformance SpecConformance PropsConformance Converter SpecConverter ConverterProofs
  ConverterProofs2 ConverterProofs3 ConverterProofs4 PropsConverter ConverterFiles SpecConverterFiles ConverterProofs5 SplitFiles SpecSplitFiles PropsSplitFiles
  PropsSplit ConfTable SpecConfTable.
Import ListNotations.
Open Scope list_scope.
Open Scope string_scope.

(** ** Reading the table *)
Definition ends (s : string) : Prop := exists t, s = "," ++ t \/ s = crlf ++ t.
Lemma ended : forall p q f r s, ends s -> In p [Start; Plain; Quote] -> In q [Start; Plain; Quote] -> read p f r s = read q f r s.
Proof. intros p q f r s (t & [->| ->]) P Q; cbn in P, Q; destruct P as [<-|[<-|[<-|[]]]], Q as [<-|[<-|[<-|[]]]]; reflexivity. Qed.
Lemma snoc_s : forall f c s, (f ++ String c "") ++ s = f ++ String c s.
Proof. intros. apply app_assoc_s. Qed.
Lemma read_plain : forall s f r rest p, every (fun c => negb (csv_special c)) s = true -> In p [Start; Plain] -> ends rest ->
  read p f r (s ++ rest) = read Plain (f ++ s) r rest.
Proof.
  induction s as [|c s IH]; intros f r rest p H P E.
  - rewrite app_nil_s. apply ended; [exact E| |]; cbn in *; intuition.
  - cbn [every] in H. apply andb_prop in H. destruct H as [H1 H2]. unfold csv_special in H1.
    destruct (Ascii.eqb c ",") eqn:C1, (Ascii.eqb c """") eqn:C2, (Ascii.eqb c "010") eqn:C3, (Ascii.eqb c "013") eqn:C4; try discriminate H1.
    cbn [append]. cbn [read]. rewrite C1, C2, C3, C4. rewrite <- (snoc_s f c s). destruct P as [<-|[<-|[]]]; apply IH; cbn; auto.
Qed.
Lemma read_quoted : forall s f r rest, ends rest -> read Quoted f r (double_quotes s ++ """" ++ rest) = read Plain (f ++ s) r rest.
Proof.
  induction s as [|c s IH]; intros f r rest E.
  - rewrite app_nil_s. transitivity (read Quote f r rest); [reflexivity|]. apply ended; [exact E| |]; cbn; auto.
  - cbn [double_quotes]. rewrite <- (snoc_s f c s). destruct (Ascii.eqb c """") eqn:Q.
    + cbn [append read]. rewrite !Q. apply IH. exact E.
    + cbn [append read]. rewrite Q. apply IH. exact E.
Qed.
Lemma read_field : forall s r rest, ends rest -> read Start "" r (csv_field s ++ rest) = read Plain s r rest.
Proof.
  intros s r rest E. unfold csv_field. destruct (every (fun c => negb (csv_special c)) s) eqn:H.
  - rewrite (read_plain s "" r rest Start H); [reflexivity|cbn; auto|exact E].
  - rewrite !app_assoc_s. exact (read_quoted s "" r rest E).
Qed.
Lemma read_line : forall fs r rest, fs <> [] -> read Start "" r (csv_line fs ++ rest) = option_map (cons (r ++ fs)%list) (read Start "" [] rest).
Proof.
  unfold csv_line. induction fs as [|f fs IH]; intros r rest N; [congruence|]. destruct fs as [|g fs].
  - cbn [map String.concat]. rewrite app_assoc_s, read_field by (exists rest; right; reflexivity). reflexivity.
  - change (String.concat "," (map csv_field (f :: g :: fs))) with (csv_field f ++ "," ++ String.concat "," (map csv_field (g :: fs))).
    rewrite !app_assoc_s, read_field by (eexists; left; reflexivity). transitivity (read Start "" (r ++ [f])%list ((String.concat "," (map csv_field (g :: fs)) ++ crlf) ++ rest)).
    + rewrite app_assoc_s. reflexivity.
    + rewrite IH by discriminate. rewrite <- app_assoc. reflexivity.
Qed.
Lemma concat_cons : forall x l, String.concat "" (x :: l) = x ++ String.concat "" l.
Proof. intros x [|y l]; [symmetry; apply app_nil_s|reflexivity]. Qed.
Lemma read_lines : forall rows, Forall (fun r => r <> []) rows -> read_csv (String.concat "" (map csv_line rows)) = Some rows.
Proof.
  intros rows H. induction H as [|r rows N H IH]; [reflexivity|]. cbn [map]. rewrite concat_cons. unfold read_csv in *. rewrite read_line by exact N. rewrite IH. reflexivity.
Qed.

(** ** The directory *)
Lemma split_names : forall s, names s (split_slash s).
Proof.
  induction s as [|c s IH]; cbn [split_slash].
  - constructor. intros ([|x a] & b & E); discriminate.
  - destruct (Ascii.eqb_spec c "/") as [->|N].
    + apply (names_more "" s); [|exact IH]. intros ([|x a] & b & E); discriminate.
    + assert (K : forall a, ~ holds "/" a -> ~ holds "/" (String c a)).
      { intros a H ([|x u] & v & E); cbn [append] in E; injection E as E1 E2; [congruence|]. apply H. exists u, v. exact E2. }
      revert IH. generalize (split_slash s). intros q IH. destruct IH as [t H|a b l H L].
      * constructor. apply K. exact H.
      * apply (names_more (String c a) b); [apply K; exact H|exact L].
Qed.
Lemma split_app : forall a b, split_slash (a ++ "/" ++ b) = (split_slash a ++ split_slash b)%list.
Proof.
  induction a as [|c a IH]; intros b; [reflexivity|]. change (String c a ++ "/" ++ b) with (String c (a ++ "/" ++ b)). cbn [split_slash]. rewrite IH. destruct (Ascii.eqb c "/"); [reflexivity|].
  pose proof (split_names a) as N. destruct (split_slash a); [inversion N|reflexivity].
Qed.
Definition good (n : string) : Prop := n <> "" /\ n <> "." /\ n <> ".." /\ ~ holds "/" n.
Lemma walk_norm : forall comps new, Forall (fun n => ~ holds "/" n) comps -> Forall good new ->
  exists k, walk new comps k /\ norm_comps true new comps = rev k /\ Forall good k.
Proof.
  induction comps as [|c comps IH]; intros new HC HN; cbn [norm_comps].
  - exists new. split; [constructor|]. auto.
  - inversion HC as [|? ? H1 H2]; subst. destruct (String.eqb_spec c "") as [->|N1]; cbn [orb].
    { destruct (IH new H2 HN) as (k & W & E & G). exists k. split; [apply walk_stay; auto|auto]. }
    destruct (String.eqb_spec c ".") as [->|N2]; cbn [orb].
    { destruct (IH new H2 HN) as (k & W & E & G). exists k. split; [apply walk_stay; auto|auto]. }
    destruct (String.eqb_spec c "..") as [->|N3]; cbn [orb negb andb].
    + destruct new as [|d new].
      * destruct (IH [] H2 HN) as (k & W & E & G). exists k. split; [apply walk_top; exact W|auto].
      * inversion HN as [|? ? (G1 & G2 & G3 & G4) HN']; subst. destruct (String.eqb_spec d "..") as [->|_]; [congruence|].
        destruct (IH new H2 HN') as (k & W & E & G). exists k. split; [apply walk_up; exact W|auto].
    + destruct (IH (c :: new) H2) as (k & W & E & G); [constructor; [repeat split; assumption|exact HN]|]. exists k. split; [apply walk_down; assumption|auto].
Qed.
Lemma walk_app : forall a h k, walk h a k -> forall b m, walk k b m -> walk h (a ++ b) m.
Proof. intros a h k W. induction W; intros b m M; cbn [app]; [exact M|apply walk_stay|apply walk_up|apply walk_top|apply walk_down]; auto. Qed.
Lemma walk_cut : forall a b h m, walk h (a ++ b) m -> exists k, walk h a k /\ walk k b m.
Proof.
  induction a as [|n a IH]; intros b h m W; cbn [app] in W; [exists h; split; [constructor|exact W]|].
  inversion W; subst; match goal with H : walk _ (a ++ b) m |- _ => destruct (IH _ _ _ H) as (k & K1 & K2) end; exists k; (split; [|exact K2]);
    [apply walk_stay|apply walk_up|apply walk_top|apply walk_down]; auto.
Qed.
Fixpoint text (k : list string) : string := match k with [] => "" | x :: r => text r ++ "/" ++ x end.
Lemma concat_snoc : forall l x, l <> [] -> String.concat "/" (l ++ [x])%list = String.concat "/" l ++ "/" ++ x.
Proof.
  induction l as [|y l IH]; intros x N; [congruence|]. destruct l as [|z l]; [reflexivity|].
  change (String.concat "/" ((y :: z :: l) ++ [x])%list) with (y ++ "/" ++ String.concat "/" ((z :: l) ++ [x])%list). rewrite IH by discriminate.
  change (String.concat "/" (y :: z :: l)) with (y ++ "/" ++ String.concat "/" (z :: l)). rewrite !app_assoc_s. reflexivity.
Qed.
Lemma concat_text : forall k, k <> [] -> "/" ++ String.concat "/" (rev k) = text k.
Proof.
  induction k as [|x k IH]; intros N; [congruence|]. cbn [rev text]. destruct k as [|y k]; [reflexivity|]. rewrite concat_snoc.
  - rewrite <- IH by discriminate. rewrite !app_assoc_s. reflexivity.
  - cbn [rev]. destruct (rev k); discriminate.
Qed.
Lemma basename_app : forall d n, ~ holds "/" n -> basename (d ++ "/" ++ n) = n.
Proof. intros d n H. apply (last_part_one (d ++ "/" ++ n)); [apply basename_last|]. split; [exact H|right; exists d; reflexivity]. Qed.
Lemma strip_end : forall a b, b <> "" -> rstrip_slash b = b -> rstrip_slash (a ++ b) = a ++ b.
Proof.
  induction a as [|c a IH]; intros b N E; [exact E|]. cbn [append rstrip_slash]. rewrite IH by assumption. destruct (a ++ b) eqn:X; [|reflexivity]. destruct a; [cbn in X; congruence|discriminate].
Qed.
Lemma strip_slash : forall a, rstrip_slash (a ++ "/") = rstrip_slash a.
Proof. induction a as [|c a IH]; [reflexivity|]. cbn [append rstrip_slash]. rewrite IH. reflexivity. Qed.
Lemma strip_none : forall y, ~ holds "/" y -> rstrip_slash y = y.
Proof.
  induction y as [|c y IH]; intros H; [reflexivity|]. cbn [rstrip_slash]. rewrite IH.
  - destruct y; [|reflexivity]. destruct (Ascii.eqb_spec c "/") as [->|]; [|reflexivity]. exfalso. apply H. exists "", "". reflexivity.
  - intros (a & b & ->). apply H. exists (String c a), b. reflexivity.
Qed.
Lemma dir_text : forall e k, e = "" \/ e = "/" -> Forall good k -> k <> [] -> basename (dirname (e ++ text k)) = match k with _ :: y :: _ => y | _ => "" end.
Proof.
  intros e [|x r] HE G N; [congruence|]. inversion G as [|? ? (_ & _ & _ & X) G']; subst. cbn [text]. rewrite <- app_assoc_s. unfold dirname. rewrite basename_app by exact X.
  replace (taken _ _) with ((e ++ text r) ++ "/").
  2:{ symmetry. transitivity (taken (String.length ((e ++ text r) ++ "/")) (((e ++ text r) ++ "/") ++ x)); [|apply taken_app]. f_equal; [rewrite !app_len; cbn [String.length]; lia|symmetry; apply app_assoc_s]. }
  destruct r as [|y r].
  - destruct HE as [->| ->]; reflexivity.
  - inversion G' as [|? ? (Y & _ & _ & Z) _]; subst. cbn [text]. destruct (every (Ascii.eqb "/") ((e ++ text r ++ "/" ++ y) ++ "/")) eqn:V.
    + exfalso. assert (Q : every (Ascii.eqb "/") y = true -> y = "").
      { destruct y as [|c y]; [reflexivity|]. cbn [every]. intros Q. apply andb_prop in Q. destruct Q as [Q _]. apply Ascii.eqb_eq in Q. subst c. exfalso. apply Z. exists "", y. reflexivity. }
      apply Y, Q. revert V. clear. generalize (e ++ text r ++ "/"). intros _.
      assert (A : forall a b, every (Ascii.eqb "/") (a ++ b) = true -> every (Ascii.eqb "/") a = true /\ every (Ascii.eqb "/") b = true).
      { induction a as [|c a IH]; intros b V; [split; [reflexivity|exact V]|]. cbn [append every] in *. apply andb_prop in V. destruct V as [V1 V2]. destruct (IH _ V2) as [V3 V4]. rewrite V1, V3. auto. }
      intros V. apply A in V. destruct V as [V _]. apply A in V. destruct V as [_ V]. apply A in V. destruct V as [_ V]. apply (A "/") in V. apply V.
    + rewrite strip_slash, strip_end; [|destruct (text r); discriminate|].
      * rewrite <- app_assoc_s. apply basename_app. exact Z.
      * apply strip_end; [discriminate|]. apply (strip_end "/"); [exact Y|apply strip_none; exact Z].
Qed.
Lemma names_no : forall s l, names s l -> Forall (fun n => ~ holds "/" n) l.
Proof. intros s l N. induction N; constructor; auto. Qed.
Lemma dir_norm : forall p, prefix "/" p = true -> exists k, walk [] (split_slash p) k /\ basename (dirname (normpath p)) = match k with _ :: y :: _ => y | _ => "" end.
Proof.
  intros p A. destruct (walk_norm (split_slash p) [] (names_no _ _ (split_names p)) (Forall_nil _)) as (k & W & E & G). exists k. split; [exact W|].
  unfold normpath. destruct (String.eqb_spec p "") as [->|_]; [discriminate A|]. rewrite A, E. clear W E A. set (two := prefix "//" p && negb (prefix "///" p)).
  assert (N : k = [] \/ k <> []) by (destruct k; [left; reflexivity|right; discriminate]). destruct N as [->|N]; [destruct two; reflexivity|].
  assert (D : (if two then "//" else "/") ++ String.concat "/" (rev k) = (if two then "/" else "") ++ text k).
  { rewrite <- concat_text by exact N. destruct two; reflexivity. }
  rewrite D. destruct (String.eqb_spec ((if two then "/" else "") ++ text k) "") as [Z|_].
  - exfalso. rewrite <- D in Z. destruct two; discriminate.
  - apply dir_text; [destruct two; auto|exact G|exact N].
Qed.
Lemma prefix_slash : forall p, prefix "/" p = true <-> exists q, p = "/" ++ q.
Proof. intros p. apply prefix_spec. Qed.
Lemma directory_spec : forall cwd p, (exists q, cwd = "/" ++ q) -> directory_of cwd p (basename (dirname (abspath cwd p))).
Proof.
  intros cwd p C. unfold abspath. destruct (prefix "/" p) eqn:A.
  - destruct (dir_norm p A) as (k & W & E). exists (split_slash cwd), (split_slash p), [], k. split; [apply split_names|]. split; [apply split_names|].
    split; [left; split; [apply prefix_slash; exact A|reflexivity]|]. split; [exact W|exact E].
  - assert (NA : forall q, p <> "/" ++ q) by (intros q Q; assert (prefix "/" p = true) by (apply prefix_slash; eauto); congruence).
    assert (AJ : prefix "/" (path_join cwd p) = true).
    { destruct C as (q & ->). apply prefix_slash. unfold path_join. rewrite A. destruct (_ || _); eexists; reflexivity. }
    destruct (dir_norm _ AJ) as (k & W & E).
    assert (J : exists here, walk [] (split_slash cwd) here /\ walk here (split_slash p) k).
    { unfold path_join in W. rewrite A in W. destruct (String.eqb_spec cwd "") as [->|_]; [destruct C; discriminate|]. cbn [orb] in W. destruct (ends_with_slash cwd) eqn:S.
      - apply slash_spec in S. destruct S as (d & ->). rewrite app_assoc_s, split_app in W. destruct (walk_cut _ _ _ _ W) as (h & W1 & W2). exists h. split; [|exact W2].
        replace (d ++ "/") with (d ++ "/" ++ "") by reflexivity. rewrite split_app. apply (walk_app _ _ _ W1). apply walk_stay; [left; reflexivity|constructor].
      - rewrite split_app in W. apply walk_cut. exact W. }
    destruct J as (here & W1 & W2). exists (split_slash cwd), (split_slash p), here, k. split; [apply split_names|]. split; [apply split_names|]. split; [right; split; [exact NA|exact W1]|]. split; [exact W2|exact E].
Qed.

(** The table can be read back: a line of titles and one record for each input that is not a
    directory, in order, with the directory, the name and the row of the file. *)
Theorem C80_table : forall a cwd isdir content messages inputs, (exists q, cwd = "/" ++ q) ->
  (forall i, In i inputs -> isdir i = false -> fits a (content i)) ->
  exists text records, conformance_table a cwd isdir content messages inputs = Ok text /\ read_csv text = Some (titles :: records) /\
    Forall2 (fun i record => exists row d n, conformance a i (content i) (messages i) = Ok row /\ directory_of cwd i d /\ last_part i n /\
        record = [d; n; r_resolution row; r_profile row; r_level row; decimal (r_nalus row); decimal (r_slice_nalus row);
                  decimal (r_slice_headers row); r_status row; r_header_status row])
      (filter (fun i => negb (isdir i)) inputs) records.
Proof.
  intros a cwd isdir content messages inputs C F.
  assert (R : exists records, table_rows a cwd content messages (filter (fun i => negb (isdir i)) inputs) = Ok records /\
    Forall2 (fun i record => exists row, conformance a i (content i) (messages i) = Ok row /\ record = columns cwd i row) (filter (fun i => negb (isdir i)) inputs) records).
  { induction inputs as [|i inputs IH]; [exists []; split; [reflexivity|constructor]|]. destruct IH as (rs & E & H); [intros j J; apply F; right; exact J|]. cbn [filter].
    destruct (isdir i) eqn:D; cbn [negb]; [exists rs; auto|]. destruct (C71_row a i (content i) (messages i) (F i (or_introl eq_refl) D)) as (l & w & row & lv & _ & K & _).
    exists (columns cwd i row :: rs). cbn [table_rows]. rewrite K, E. cbn [rbind]. split; [reflexivity|]. constructor; [exists row; auto|exact H]. }
  destruct R as (rs & E & H). unfold conformance_table. rewrite E. cbn [rbind]. eexists. exists rs. split; [reflexivity|]. split.
  - unfold write_csv. apply (read_lines (csv_fields :: rs)). constructor; [discriminate|]. clear E F. induction H as [|i r is rs (row & _ & ->) H IH]; constructor; [discriminate|exact IH].
  - clear E F. induction H as [|i r is rs (row & K & ->) H IH]; constructor; [|exact IH]. exists row. eexists. eexists. split; [exact K|]. split; [apply directory_spec; exact C|].
    split; [apply basename_last|]. reflexivity.
Qed.
Lemma names_det : forall s l, names s l -> forall m, names s m -> l = m.
Proof.
  assert (K : forall a b c d, ~ holds "/" a -> ~ holds "/" c -> a ++ "/" ++ b = c ++ "/" ++ d -> a = c /\ b = d).
  { induction a as [|x a IH]; intros b [|y c] d HA HC E; cbn [append] in E; injection E; intros; subst.
    - auto.
    - exfalso. apply HC. exists "", c. reflexivity.
    - exfalso. apply HA. exists "", a. reflexivity.
    - destruct (IH b c d) as [-> ->]; auto; intros (u & v & ->); [apply HA; exists (String y u), v|apply HC; exists (String y u), v]; reflexivity. }
  intros s l N. induction N as [s H|a b l H N IH]; intros m M; inversion M as [t H' E|c d q H' M' E]; subst.
  - reflexivity.
  - exfalso. apply H. exists c, d. reflexivity.
  - exfalso. apply H'. exists a, b. reflexivity.
  - destruct (K c d a b H' H E) as [-> ->]. f_equal. apply IH. exact M'.
Qed.
Lemma walk_det : forall h l k, walk h l k -> forall m, walk h l m -> k = m.
Proof.
  intros h l k W. induction W as [h|h n t k N W IH|d h t k W IH|t k W IH|h n t k N1 N2 N3 W IH]; intros m M.
  - inversion M. reflexivity.
  - inversion M; subst; auto; destruct N; congruence.
  - inversion M; subst; auto; try congruence; match goal with H : _ \/ _ |- _ => destruct H; congruence end.
  - inversion M; subst; auto; try congruence; match goal with H : _ \/ _ |- _ => destruct H; congruence end.
  - inversion M; subst; auto; try congruence; match goal with H : _ \/ _ |- _ => destruct H; congruence end.
Qed.
(** A path is in one directory. *)
Theorem C80_directory : forall cwd p, (exists q, cwd = "/" ++ q) ->
  (exists d, directory_of cwd p d) /\ (forall d d', directory_of cwd p d -> directory_of cwd p d' -> d = d').
Proof.
  intros cwd p C. split; [eexists; apply directory_spec; exact C|].
  intros d d' (c & l & h & k & N1 & N2 & H & W & ->) (c' & l' & h' & k' & N1' & N2' & H' & W' & ->).
  pose proof (names_det _ _ N1 _ N1'). pose proof (names_det _ _ N2 _ N2'). subst c' l'.
  assert (E : h = h').
  { destruct H as [[(q & Q) ->]|[Q H]], H' as [[(q' & Q') ->]|[Q' H']]; [reflexivity|exfalso; exact (Q' _ Q)|exfalso; exact (Q _ Q')|exact (walk_det _ _ _ H _ H')]. }
  subst h'. rewrite (walk_det _ _ _ W _ W'). reflexivity.
Qed.
(** The first two columns do not tell all files apart. *)
Theorem C80_same_name_refuted : exists cwd i j d n, i <> j /\ directory_of cwd i d /\ directory_of cwd j d /\ last_part i n /\ last_part j n.
Proof.
  exists "/", "a/x/f.264", "b/x/f.264", "x", "f.264". split; [discriminate|].
  split; [apply (directory_spec "/" "a/x/f.264"); exists ""; reflexivity|]. split; [apply (directory_spec "/" "b/x/f.264"); exists ""; reflexivity|].
  split; [apply (basename_last "a/x/f.264")|apply (basename_last "b/x/f.264")].
Qed.

(** ** Examples *)
Example C80_ex_dir : map (fun p => basename (dirname (abspath "/home/me" p))) ["f.264"; "d/f.264"; "../f.264"; "./d//x/../f.264"; "/f.264"; "/a/f.264"; "//a/f.264"; ".."; "../../../q/f"] =
  ["me"; "d"; "home"; "d"; ""; "a"; "a"; ""; "q"].
Proof. reflexivity. Qed.
Example C80_ex : fits true ex_stream /\ conformance_table true "/suite" (String.eqb "sub") (fun _ => ex_stream) (fun _ => "a, ""b""" ++ String "010" "") ["x,1.264"; "sub"] =
  Ok ("input_dir,input_file,resolution,profile,level,number_of_nalus,number_of_slice_nalus,number_of_slice_header_nalus,h264nal_status,slice_header_status" ++ crlf ++
      "suite,""x,1.264"",1916x1080,Constrained High,3.1,5,2,1,""h264nal: invalid bitstream; a, """"b"""""",unparsed slice headers: 1/2" ++ crlf).
Proof. split; [exact (proj1 C71_ex)|]. vm_compute. reflexivity. Qed.

Print Assumptions C80_table.
Print Assumptions C80_directory.
Print Assumptions C80_same_name_refuted.
