(** * C123, C124: names of Excel files, Excel, local URLs and shortcuts *)
From Coq Require Import String.
From Verif Require Import PyBase Utils_Model OsPath_Model OsPath_Spec FileUrl_Model FileUrl_Spec Excel_Model Excel_Spec Excel_Proofs.

(** ** C123 *)

(** Files of Excel are those whose names end with an extension of Excel, in letters of any case, and
    maybe a newline. *)
Theorem C123_names : forall s, is_excel_file s = true <-> ends_excel s \/ exists s', s = s' ++ [10%N] /\ ends_excel s'.
Proof. exact excel_iff. Qed.
Print Assumptions C123_names.
Example C123_names_ex : is_excel_file (lit "a.b/Book.XlSm") = true /\ is_excel_file (lit "a.xls.txt") = false /\ is_excel_file (lit "xls") = false /\ is_excel_file (lit "a.xlsb") = false.
Proof. repeat split; reflexivity. Qed.
Theorem C123_newline_refuted : exists s, is_excel_file s = true /\ ~ ends_excel s.
Proof.
  exists (lit "a.xls" ++ [10%N]). split; [reflexivity|]. intros (a & e & x & E & I & F). apply (f_equal (fun s => last s 0%N)) in E.
  assert (L : x <> []) by (intros ->; inversion F; subst e; cbn in I; repeat (destruct I as [X|I]; [discriminate X|]); exact I).
  destruct (exists_last L) as (y & z & ->). rewrite app_comm_cons, app_assoc in E. rewrite !last_last in E. assert (Z : z = 10%N) by (symmetry; exact E). subst z.
  apply Forall2_app_inv_r in F. destruct F as (e1 & e2 & _ & F & ->). destruct e2 as [|k e2]; [inversion F|]. assert (S : same_letter k 10%N) by (inversion F; assumption). assert (e2 = []) by (inversion F as [|? ? ? ? _ G]; inversion G; reflexivity). subst e2.
  assert (K : last (e1 ++ [k]) 0%N = k) by apply last_last. cbn [In extensions] in I.
  repeat (destruct I as [X|I]; [rewrite <- X in K; cbn in K; subst k; destruct S as [S|[S|[S1 S2]]]; discriminate|]). exact I.
Qed.
Print Assumptions C123_newline_refuted.
(** They are among those that the backend for Excel bids for; ... *)
Theorem C123_bid : forall word_char s, is_excel_file s = true -> xl_ext_anywhere word_char s = true.
Proof. exact excel_bid. Qed.
Print Assumptions C123_bid.
(** ... but it bids for others, too. *)
Theorem C123_same_refuted : exists word_char s, xl_ext_anywhere word_char s = true /\ is_excel_file s = false.
Proof. exists (fun _ => false), (lit "a.xls.txt"). split; reflexivity. Qed.
Print Assumptions C123_same_refuted.

(** Paths of local URLs become absolute, lead to where they led from the current folder, and stay so
    whatever folder is current later; other URLs are left alone. *)
Theorem C123_local : forall cwd r, root_of cwd <> Relative -> u_scheme r = lit "file" ->
  root_of (u_path (normalize_parts cwd r)) <> Relative
  /\ (forall folder, leads_to folder (u_path (normalize_parts cwd r)) = leads_to (leads_to [] cwd) (u_path r))
  /\ (forall cwd', normalize_parts cwd' (normalize_parts cwd r) = normalize_parts cwd r).
Proof. exact url_file. Qed.
Print Assumptions C123_local.
Theorem C123_remote : forall cwd r, u_scheme r <> lit "file" -> normalize_parts cwd r = r.
Proof. exact url_other. Qed.
Print Assumptions C123_remote.
Definition file_parts (p : pystr) : split_result := {| u_scheme := lit "file"; u_netloc := []; u_path := p; u_query := []; u_fragment := [] |}.
Example C123_local_ex : normalize_local_url (lit "/home") [file_parts []; file_parts (lit "b/../c.xls")] = Ok (lit "file:///home/c.xls").
Proof. reflexivity. Qed.
(** But the function cannot be called as documented, with the parts alone: it wants another argument. *)
Theorem C123_call_refuted : exists cwd r, normalize_local_url cwd [r] = Raise TypeError.
Proof. exists (lit "/home"), (file_parts (lit "c.xls")). reflexivity. Qed.
Print Assumptions C123_call_refuted.

(** ** C124 *)

(** Excel is asked for once, and all checks answer alike, however often and whatever it would say later. *)
Theorem C124_once : forall found n k, checks found (S n) (None, k) = (repeat (found k) (S n), (Some (found k), S k)).
Proof. exact checks_once. Qed.
Print Assumptions C124_once.
Example C124_once_ex : checks (fun n => Nat.eqb n 0) 3 (None, 0) = ([true; true; true], (Some true, 1)).
Proof. reflexivity. Qed.
(** Projects are given out only if they are not protected. *)
Theorem C124_project : forall P (project : com P) protection p,
  get_vb_project project protection = Project p <-> project = Val p /\ exists z, protection p = Val z /\ z <> 1%Z.
Proof. exact project_iff. Qed.
Print Assumptions C124_project.
Example C124_project_ex : get_vb_project (Val tt) (fun _ => Val 1%Z) = Shown true /\ get_vb_project (Val tt) (fun _ => Val 0%Z) = Project tt /\ get_vb_project (ComError (-2147352567)) (fun _ : unit => Val 0%Z) = Shown false.
Proof. repeat split; reflexivity. Qed.

(** Shortcuts once created are saved, once and last, after some of what is wanted was set; without an
    error all of it was set. *)
Theorem C124_saved : forall fails path target wdir args icon desc ev r,
  create_shortcut fails path target wdir args icon desc = (ev, r) -> fails (Create path) = None ->
  exists l, ev = Create path :: map (fun av => Assign (fst av) (snd av)) l ++ [Save]
    /\ (forall a s, In (a, s) l -> wants target wdir args icon desc a s)
    /\ (r = None -> fails Save = None /\ forall a s, wants target wdir args icon desc a s -> In (a, s) l /\ fails (Assign a s) = None).
Proof. exact shortcut_trace. Qed.
Print Assumptions C124_saved.
(** There is no error unless Windows gives one; ... *)
Theorem C124_works : forall fails path target wdir args icon desc,
  fails (Create path) = None -> fails Save = None -> (forall a s, wants target wdir args icon desc a s -> fails (Assign a s) = None) ->
  snd (create_shortcut fails path target wdir args icon desc) = None.
Proof. exact shortcut_works. Qed.
Print Assumptions C124_works.
(** ... and nothing is saved if it cannot be created. *)
Theorem C124_refused : forall fails path target wdir args icon desc e,
  fails (Create path) = Some e -> create_shortcut fails path target wdir args icon desc = ([Create path], Some e).
Proof. exact shortcut_refused. Qed.
Print Assumptions C124_refused.
Example C124_saved_ex :
  create_shortcut (fun _ => None) (lit "a.lnk") (lit "a.exe") (Some []) (Some (lit "-v")) None (Some (lit "An a"))
  = ([Create (lit "a.lnk"); Assign Targetpath (lit "a.exe"); Assign Description (lit "An a"); Assign Arguments (lit "-v"); Save], None).
Proof. reflexivity. Qed.
(** So a shortcut may be saved without its target when there is an error, and the error may be lost for
    that of saving. *)
Theorem C124_half_refuted : exists fails path target ev e,
  create_shortcut fails path target None None None None = (ev, Some e) /\ In Save ev /\ fails Save = None /\ fails (Assign Targetpath target) <> None.
Proof.
  exists (fun ev => match ev with Assign _ _ => Some AttributeError | _ => None end), (lit "a.lnk"), (lit "a.exe"). do 2 eexists.
  split; [reflexivity|]. split; [right; right; left; reflexivity|]. split; [reflexivity|discriminate].
Qed.
Print Assumptions C124_half_refuted.
Theorem C124_lost_refuted : exists fails path target e, fails (Assign Targetpath target) = Some e /\ snd (create_shortcut fails path target None None None None) <> Some e.
Proof.
  exists (fun ev => match ev with Assign _ _ => Some AttributeError | Save => Some IOError | _ => None end), (lit "a.lnk"), (lit "a.exe"), AttributeError. split; [reflexivity|discriminate].
Qed.
Print Assumptions C124_lost_refuted.
