(** The names of the shipped modules (Src*.v) in the namespace of the package. *)
From Coq Require Import List Bool.
From Verif Require Import Bytes Impl Src GenBuild Package PackageThm.
Import ListNotations.
Lemma shipped_familiar : forallb (fun s => familiar (src_name s)) all_sources = true.
Proof. vm_compute. reflexivity. Qed.
Lemma shipped_found files : (forall s, In s all_sources -> In (src_name s +++ ".py"%b) files) ->
  forall s, In s all_sources -> getattr (impl_package files) (src_name s) = Ok (Module (src_name s +++ ".py"%b)).
Proof.
  intros H s Hs. pose proof (proj1 (forallb_forall _ _) shipped_familiar s Hs) as F. apply familiar_ok in F. apply family_formula_found; [apply H, Hs|apply F|apply F].
Qed.
