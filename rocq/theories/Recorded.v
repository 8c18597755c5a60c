(** The recorded values are those of the specification. *)
From Coq Require Import NArith List Bool Lia Strings.Byte.
From Coq Require Import ZifyN ZifyNat ZifyBool.
From Verif Require Import Bytes CSem Spec AesSpec CSemFacts KeyMem Demo OneShot OneShotFacts RefVals Selfcheck SelfcheckSpec.
Import ListNotations.
Local Open Scope N_scope.

Definition expectations (f : probe_fn) : list N := map (fun p => expected f (fst p) (snd p)) messages.

(** The AES functions are computed with the model, which uses tables. *)
Definition via_model (f : hash_fn) (p : list byte * N) : option N :=
  match call f x86_64_asan 4096 (mlen (fst p)) (snd p) (island 4096 (fst p)) with Ok (v, _) => Some v | _ => None end.
Lemma via_model_ok : forall f l rs,
  forallb (fun p : list byte * N => (snd p <? 2 ^ 64) && (mlen (fst p) <? 1000)) l = true ->
  map (via_model f) l = map Some rs -> map (fun p => value f (fst p) (snd p)) l = rs.
Proof.
  intros f l rs S H. apply (f_equal (map (fun o : option N => match o with Some v => v | None => 0 end))) in H.
  rewrite !map_map, map_id in H. rewrite <- H. apply map_ext_in. intros [msg seed] I.
  rewrite forallb_forall in S. specialize (S _ I). cbn [fst snd] in *.
  assert (K : key_at x86_64_asan (island 4096 msg) 4096 msg).
  { apply island_key_at; [reflexivity|]. change (addr_space x86_64_asan) with 18446744073709551616. lia. }
  assert (U : usable f x86_64_asan) by (destruct f; cbn; unfold whole_words_ok, be_tail_builds; cbn; auto; split; discriminate || auto).
  assert (R : room f x86_64_asan 4096 (mlen msg)).
  { destruct f; cbn [room]; auto; try lia. split; [left; reflexivity|].
    change (addr_space x86_64_asan) with 18446744073709551616. lia. }
  unfold via_model. cbn [fst snd]. rewrite call_ok; auto. lia.
Qed.

Theorem recorded_ok : forall f, expectations f = recorded f.
Proof.
  unfold expectations. intros [[]| | |]; cbn [expected recorded].
  1-5: vm_compute; reflexivity.
  4-6: vm_compute; reflexivity.
  - apply via_model_ok; vm_compute; reflexivity.
  - apply via_model_ok; vm_compute; reflexivity.
  - apply via_model_ok; vm_compute; reflexivity.
Qed.
