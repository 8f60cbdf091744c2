(** C67: content callbacks are called exactly once, the last one first. *)
From Coq Require Import List NArith ZArith Bool Lia Strings.Byte.
From Verif Require Import Base Stream Asn1 Oid X509.
From Verif Require Import SpecCallback.
Import ListNotations.
Open Scope N_scope.

(** ** Putting sessions together *)

Fixpoint continue (t : session) (k : world -> session) : session :=
  match t with
  | Done w => k w
  | Call i w k' => Call i w (fun w' => continue (k' w') k)
  end.

Lemma played_continue : forall cbs t k, played cbs (continue t k) = played cbs (k (played cbs t)).
Proof. induction t as [w|i w k' IH]; intros k; cbn [continue played]; [reflexivity|apply IH]. Qed.

Lemma calls_continue : forall l l' t k, calls l t -> (forall w, calls l' (k w)) -> calls (l ++ l') (continue t k).
Proof.
  intros l l' t k H Hk. induction H as [w|i l w k' H IH]; cbn [continue app]; [apply Hk|].
  constructor. intros w'. apply IH.
Qed.

Lemma in_order_ext : forall l f g, (forall cbs w, f cbs w = g cbs w) -> calls_in_order l f -> calls_in_order l g.
Proof. intros l f g E [t [H R]]. exists t. split; [exact H|]. intros cbs w. rewrite <- E. apply R. Qed.
Lemma in_order_fixed : forall c, calls_in_order [] (fun _ => c).
Proof. intros c. exists (fun w => Done (c w)). split; [constructor|reflexivity]. Qed.
Lemma in_order_call : forall i, calls_in_order [i] (fun cbs => cbs i).
Proof. intros i. exists (fun w => Call i w Done). split; [repeat constructor|reflexivity]. Qed.
Lemma in_order_then : forall l l' f g, calls_in_order l f -> calls_in_order l' g -> calls_in_order (l ++ l') (fun cbs => andthen (f cbs) (g cbs)).
Proof.
  intros l l' f g [t [H R]] [t' [H' R']]. exists (fun w => continue (t w) t'). split; [intros w; apply calls_continue; auto|].
  intros cbs w. unfold andthen. rewrite R, R', played_continue. reflexivity.
Qed.

Section WithEnv.
Context `{E : Env}.

Lemma in_order_length : forall l f h, calls_in_order l f -> calls_in_order l (fun cbs => with_length (f cbs) h).
Proof.
  intros l f h [t [H R]].
  exists (fun w => continue (t w) (fun w' => Done (h (sub_sz (n20_stream_byte_count (w_stream w')) (n20_stream_byte_count (w_stream w))) w'))). split.
  - intros w. rewrite <- (app_nil_r l). apply calls_continue; [apply H|constructor].
  - intros cbs w. rewrite played_continue. cbn [played]. rewrite <- R. reflexivity.
Qed.

Lemma in_order_header : forall l f class_ constructed tag ti, calls_in_order l f ->
  calls_in_order l (fun cbs => n20_asn1_header_with_content class_ constructed tag (Some (f cbs)) ti).
Proof. intros l f class_ constructed tag ti H. unfold n20_asn1_header_with_content. destruct (ti_type ti); repeat apply in_order_length; exact H. Qed.

(** ** Callbacks in the structures of the caller *)

(** The caller's array with the callbacks exchanged: where there is one, the [i]th is [cbs i]. *)
Definition with_callback (x : extension) (f : cmd) : extension :=
  mkExtension (ext_oid x) (ext_critical x) (match ext_content_cb x with Some _ => Some f | None => None end).
Fixpoint with_callbacks_from (i : nat) (cbs : nat -> cmd) (l : list extension) : list extension :=
  match l with
  | [] => []
  | x :: l => with_callback x (cbs i) :: with_callbacks_from (S i) cbs l
  end.
Definition exts_with (x : extensions) (cbs : nat -> cmd) : extensions :=
  mkExtensions (exts_count x) (match exts_list x with Some l => Some (with_callbacks_from 0 cbs l) | None => None end).
Definition tbs_with (t : tbs) (cbs : nat -> cmd) : tbs :=
  mkTbs (tbs_serial t) (tbs_sig_alg t) (tbs_issuer t) (tbs_validity t) (tbs_subject t) (tbs_spki t) (exts_with (tbs_exts t) cbs).
Definition cert_with (c : cert) (cbs : nat -> cmd) : cert :=
  mkCert (match c_tbs c with Some t => Some (tbs_with t cbs) | None => None end) (c_sig_alg c) (c_sig_bits c) (c_signature c).

(** Is there a callback at this place of the array? *)
Definition has_callback (x : extensions) (i : nat) : bool :=
  match exts_list x with
  | Some l => match nth_error l i with Some x => match ext_content_cb x with Some _ => true | None => false end | None => false end
  | None => false
  end.
Definition callbacks (x : extensions) : list nat := downwards (N.to_nat (exts_count x)) (has_callback x).

Lemma nth_with : forall cbs l i j, nth_error (with_callbacks_from j cbs l) i = option_map (fun x => with_callback x (cbs (j + i)%nat)) (nth_error l i).
Proof.
  induction l as [|x l IH]; intros [|i] j; cbn [with_callbacks_from nth_error option_map]; try reflexivity.
  - rewrite Nat.add_0_r. reflexivity.
  - rewrite IH, <- plus_n_Sm. reflexivity.
Qed.

Lemma in_order_item : forall x i, calls_in_order (match ext_content_cb x with Some _ => [i] | None => [] end)
                                    (fun cbs => extension_item (with_callback x (cbs i))).
Proof.
  intros x i. unfold extension_item, with_callback. cbn [ext_oid ext_critical ext_content_cb]. apply in_order_length.
  rewrite <- (app_nil_r (match ext_content_cb x with Some _ => [i] | None => [] end)). apply in_order_then; [|apply in_order_fixed].
  rewrite <- (app_nil_r (match ext_content_cb x with Some _ => [i] | None => [] end)). apply in_order_then; [|apply in_order_fixed].
  apply in_order_length. destruct (ext_content_cb x); [apply in_order_call|apply in_order_fixed].
Qed.

Lemma in_order_loop : forall c l n, calls_in_order (downwards n (has_callback (mkExtensions c (Some l))))
                                    (fun cbs => extension_loop n (with_callbacks_from 0 cbs l)).
Proof.
  intros c l. induction n as [|i IH]; [exact (in_order_fixed skip)|]. cbn [downwards extension_loop].
  replace (if has_callback (mkExtensions c (Some l)) i then i :: downwards i (has_callback (mkExtensions c (Some l)))
           else downwards i (has_callback (mkExtensions c (Some l))))
    with ((if has_callback (mkExtensions c (Some l)) i then [i] else []) ++ downwards i (has_callback (mkExtensions c (Some l))))
    by (destruct (has_callback _ i); reflexivity).
  apply in_order_then; [|exact IH].
  destruct (nth_error l i) as [x|] eqn:N.
  - apply (in_order_ext _ (fun cbs => extension_item (with_callback x (cbs i)))).
    + intros cbs w. rewrite nth_with, N. reflexivity.
    + replace (has_callback (mkExtensions c (Some l)) i) with (match ext_content_cb x with Some _ => true | None => false end)
        by (unfold has_callback; cbn [exts_list]; rewrite N; reflexivity).
      pose proof (in_order_item x i) as H. destruct (ext_content_cb x); exact H.
  - apply (in_order_ext _ (fun _ => log [UBReadOob])).
    + intros cbs w. rewrite nth_with, N. reflexivity.
    + replace (has_callback (mkExtensions c (Some l)) i) with false by (unfold has_callback; cbn [exts_list]; rewrite N; reflexivity).
      apply in_order_fixed.
Qed.

Lemma in_order_extension : forall x, calls_in_order (callbacks x) (fun cbs => n20_x509_extension (Some (exts_with x cbs))).
Proof.
  intros [c [l|]]; unfold callbacks, exts_with, n20_x509_extension; cbn [exts_count exts_list].
  - destruct (N.eqb_spec c 0) as [->|_]; [apply in_order_fixed|]. unfold n20_asn1_sequence. apply in_order_header, in_order_loop.
  - replace (downwards _ _) with (@nil nat); [apply in_order_fixed|]. symmetry. induction (N.to_nat c) as [|n IH]; [reflexivity|exact IH].
Qed.

Lemma in_order_tbs : forall t, calls_in_order (callbacks (tbs_exts t)) (fun cbs => n20_x509_cert_tbs (Some (tbs_with t cbs))).
Proof.
  intros t. unfold n20_x509_cert_tbs, n20_asn1_sequence. apply in_order_header. unfold n20_x509_cert_tbs_content, tbs_with.
  cbn [tbs_serial tbs_sig_alg tbs_issuer tbs_validity tbs_subject tbs_spki tbs_exts].
  do 7 (rewrite <- (app_nil_r (callbacks (tbs_exts t))); apply in_order_then; [|apply in_order_fixed]). apply in_order_extension.
Qed.

(** ** The theorems *)

(** An element of any class and tag, with or without overrides, calls its callback once, before anything else is written. *)
Theorem C67_element : forall class_ constructed tag ti,
  exists k : world -> world -> world,
  forall f w, n20_asn1_header_with_content class_ constructed tag (Some f) ti w = k w (f w).
Proof.
  intros class_ constructed tag ti. exists (fun w w' => n20_asn1_header_with_content class_ constructed tag (Some (fun _ => w')) ti w).
  intros f w. unfold n20_asn1_header_with_content, with_length. destruct (ti_type ti); reflexivity.
Qed.

(** Every callback in the array is called once, the last one first, and callbacks that lie beyond the count are not called at all. *)
Theorem C67_extensions : forall x, calls_in_order (callbacks x) (fun cbs => n20_x509_extension (Some (exts_with x cbs))).
Proof. exact in_order_extension. Qed.

Theorem C67_certificate : forall c,
  calls_in_order (match c_tbs c with Some t => callbacks (tbs_exts t) | None => [] end) (fun cbs => n20_x509_cert (Some (cert_with c cbs))) /\
  (forall t, calls_in_order (callbacks (tbs_exts t)) (fun cbs => n20_x509_cert_tbs (Some (tbs_with t cbs)))).
Proof.
  intros c. split; [|exact in_order_tbs]. unfold n20_x509_cert, n20_asn1_sequence. apply in_order_header.
  unfold n20_x509_cert_content, cert_with. cbn [c_tbs c_sig_alg c_sig_bits c_signature].
  set (l := match c_tbs c with Some t => callbacks (tbs_exts t) | None => [] end).
  change l with ([] ++ l). apply in_order_then; [apply (in_order_fixed)|]. unfold l.
  destruct (c_tbs c) as [t|]; [apply in_order_tbs|apply in_order_fixed].
Qed.
End WithEnv.
Print Assumptions C67_element.
Print Assumptions C67_extensions.
Print Assumptions C67_certificate.

(** Documents of elements in elements, to any depth, with callbacks anywhere inside. [Fixed] is a piece of code that calls none of them. *)
Inductive layout :=
| Fixed (c : cmd)
| Callback (i : nat)
| Element (class_ : N) (constructed : bool) (tag : N) (ti : tag_info) (content : layout)
| Then (first second : layout).
Section WithEnv.
Context `{E : Env}.
Fixpoint rendering (d : layout) (cbs : nat -> cmd) : cmd :=
  match d with
  | Fixed c => c
  | Callback i => cbs i
  | Element class_ constructed tag ti d => n20_asn1_header_with_content class_ constructed tag (Some (rendering d cbs)) ti
  | Then d d' => andthen (rendering d cbs) (rendering d' cbs)
  end.
Fixpoint places (d : layout) : list nat :=
  match d with
  | Fixed _ => []
  | Callback i => [i]
  | Element _ _ _ _ d => places d
  | Then d d' => places d ++ places d'
  end.

Theorem C67_document : forall d, calls_in_order (places d) (rendering d).
Proof.
  induction d as [c|i|class_ constructed tag ti d IH|d IH d' IH']; cbn [places].
  - apply in_order_fixed.
  - apply in_order_call.
  - apply (in_order_header _ _ class_ constructed tag ti IH).
  - apply (in_order_then _ _ _ _ IH IH').
Qed.
End WithEnv.
Print Assumptions C67_document.

(** What the statements exclude: code that calls its callback twice, or never, is not code that calls it once, as soon as what the callback does matters. *)
Lemma once_only : forall (f : (nat -> cmd) -> cmd), calls_in_order [0%nat] f ->
  forall w, exists w1 k, forall cbs, f cbs w = k (cbs 0%nat w1).
Proof.
  intros f [t [H R]] w. specialize (H w). specialize (fun cbs => R cbs w). destruct (t w) as [w0|i w1 k]; inversion H; subst.
  exists w1. exists (fun w' => match k w' with Done w => w | _ => w' end). intros cbs. rewrite R. cbn [played].
  match goal with H : forall w', calls [] (k w') |- _ => specialize (H (cbs 0%nat w1)); inversion H end. reflexivity.
Qed.
Example C67_twice : ~ calls_in_order [0%nat] (fun cbs => andthen (cbs 0%nat) (cbs 0%nat)).
Proof.
  intros H. destruct (once_only _ H (mkWorld None [])) as [w1 [k R]].
  set (n := length (w_ub w1)). set (a := mkWorld None (UBReadOob :: w_ub w1)).
  assert (A : forall p, k a = p).
  { intros p. specialize (R (fun _ w => if Nat.eqb (length (w_ub w)) n || Nat.eqb (length (w_ub w)) 0 then a else p)).
    unfold andthen in R. cbn [w_ub length] in R. fold n in R. rewrite !Nat.eqb_refl, orb_true_r, orb_true_l in R. cbv beta iota in R.
    replace (Nat.eqb (length (w_ub a)) n) with false in R by (symmetry; apply Nat.eqb_neq; cbn [a w_ub length]; fold n; lia).
    cbn [a w_ub length Nat.eqb orb] in R. congruence. }
  pose proof (A (mkWorld None [])) as A1. rewrite (A (mkWorld None [UBReadOob])) in A1. discriminate A1.
Qed.
Example C67_never : ~ calls_in_order [] (fun cbs => cbs 0%nat) /\ ~ calls_in_order [0%nat; 1%nat] (fun cbs => andthen (cbs 1%nat) (cbs 0%nat)).
Proof.
  split.
  - intros [t [H R]]. specialize (H (mkWorld None [])). specialize (fun cbs => R cbs (mkWorld None [])). destruct (t (mkWorld None [])) as [w|]; [|inversion H].
    pose proof (R (fun _ _ => mkWorld None [UBReadOob])) as R1. specialize (R (fun _ _ => mkWorld None [])). cbn [played] in *. congruence.
  - intros [t [H R]]. specialize (H (mkWorld None [])). specialize (fun cbs => R cbs (mkWorld None [])).
    destruct (t (mkWorld None [])) as [w|i w k]; inversion H; subst.
    match goal with H : forall w', calls [1%nat] (k w') |- _ => rename H into K end.
    set (b := mkWorld None (UBReadOob :: w_ub w)). set (q := mkWorld None []).
    pose proof (K q) as K1. destruct (k q) as [w'|i' w' k'] eqn:Kq; inversion K1; subst.
    assert (A : forall p, played (fun _ _ => q) (k' b) = p).
    { intros p. specialize (R (fun i x => match i with O => if Nat.eqb (length (w_ub x)) (length (w_ub w)) then q else p | _ => b end)).
      unfold andthen in R. cbn [played] in R. rewrite Nat.eqb_refl, Kq in R. cbn [played] in R.
      replace (Nat.eqb (length (w_ub b)) (length (w_ub w))) with false in R by (symmetry; apply Nat.eqb_neq; cbn [b w_ub length]; lia).
      match goal with H : forall w', calls [] (k' w') |- _ => specialize (H b); destruct (k' b) as [d|]; [|inversion H] end.
      cbn [played] in *. congruence. }
    pose proof (A (mkWorld None [])) as A1. rewrite (A (mkWorld None [UBReadOob])) in A1. discriminate A1.
Qed.

(** A certificate with three extensions, the second without a callback. *)
Section Case.
Context `{E : Env}.
Definition three : extensions := mkExtensions 3 (Some [mkExtension (Some OID_KEY_USAGE) true (Some skip); mkExtension (Some OID_BASIC_CONSTRAINTS) true None;
  mkExtension (Some OID_TCG_DICE_UEID) false (Some skip); mkExtension (Some OID_TCG_DICE_UEID) false (Some skip)]).
Example C67_case : callbacks three = [2; 0]%nat /\ callbacks (mkExtensions 3 None) = [].
Proof. split; reflexivity. Qed.
End Case.
