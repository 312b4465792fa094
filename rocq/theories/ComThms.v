(** Theorems of C68 with their proofs; PropCom.v states them again. *)
From Coq Require Import Lia List String.
From Verif Require Import CBase CStr ComModel ComSpec CLemmas ComProofs.
Import ListNotations.
Local Open Scope list_scope.
Local Open Scope Z_scope.

Lemma C68_numbered_proof :
forall s a d b, numbered s a d b -> extract_periodic_name s = Ret (1, Some (d ++ [80])).
Proof.
  intros s a d b H. unfold extract_periodic_name. now rewrite (permanent_ok s a d b H).
Qed.

Lemma C68_lettered_proof :
forall s c year id sub frag, no_number s -> lettered s c year id sub frag ->
  extract_periodic_name s = Ret (1, Some ([c; 47] ++ year ++ [32] ++ id ++ sub ++ frag)).
Proof.
  intros s c year id sub frag N (a & n & b & E & C & F & Y & FY & NI & FI & NS & FS & FR). unfold extract_periodic_name. rewrite permanent_none by assumption.
  rewrite E in F |- *. rewrite provisional_first; [|assumption| |exact F].
  - cbn [app]. rewrite (rest_ok year n id sub frag b) by assumption. reflexivity.
  - destruct Y as (y0 & ys & -> & B). exists y0. eexists. split; [reflexivity|assumption].
Qed.

Lemma C68_bare_proof :
forall a y v t b, let s := a ++ [40] ++ y ++ t ++ [41] ++ b in no_number s -> no_letter s ->
  ~ In 40 a -> year_of y v -> 1000 < v < 2300 -> not_first a_digit (t ++ [41]) -> ~ In 41 t ->
  extract_periodic_name s = Ret (1, Some (y ++ t)).
Proof.
  intros a y v t b s N L NA Y V NT N41. unfold extract_periodic_name. rewrite permanent_none, provisional_none by assumption. unfold s. now rewrite (bare_ok a y v t b).
Qed.

Lemma C68_none_proof :
forall s, no_number s -> no_letter s -> ~ In 40 s -> extract_periodic_name s = Ret (0, None).
Proof.
  intros s N L P. unfold extract_periodic_name. rewrite permanent_none, provisional_none by assumption. now rewrite bare_none.
Qed.

Lemma C68_length_proof :
forall s r o, extract_periodic_name s = Ret (r, o) ->
  (r = 0 /\ o = None) \/ (r = 1 /\ exists t, o = Some t /\ (length t <= length s + 1)%nat).
Proof.
  intros s r o H. unfold extract_periodic_name in H. destruct (permanent s) as [t|] eqn:P; [|destruct (provisional s) as [t|] eqn:V].
  - injection H as <- <-. right. split; [reflexivity|]. exists t. split; [reflexivity|]. unfold permanent in P. change (zs _) with [80; 41] in P. destruct (strstr s [80; 41]) as [e|] eqn:E; [|discriminate]. cbv zeta in P. destruct (_ =? _); [|discriminate]. injection P as <-. rewrite firstn_length, skipn_length. lia.
  - injection H as <- <-. right. split; [reflexivity|]. exists t. split; [reflexivity|]. now apply provisional_len.
  - destruct (bare s) as [[t|]| | |] eqn:B; try discriminate; cbn [obind] in H; injection H as <- <-; [right|now left]. split; [reflexivity|]. exists t. split; [reflexivity|]. pose proof (bare_len s t B). lia.
Qed.

Lemma C68_longer_refuted_proof :
exists s t, extract_periodic_name s = Ret (1, Some t) /\ (length s < length t)%nat.
Proof.
  exists (zs "C/1999"%string), (zs "C/1999 "%string). split; [vm_compute; reflexivity|cbn; lia].
Qed.

Lemma C68_letters_refuted_proof :
forall c, 65 <= c <= 90 -> c <> 80 -> c <> 67 ->
  extract_periodic_name ([40; c] ++ zs "/1993 F2)"%string) = Ret (0, None) /\ extract_periodic_name (zs "(73P-B)"%string) = Ret (0, None).
Proof.
  intros c C N1 N2. split; [|vm_compute; reflexivity]. unfold extract_periodic_name. change (zs _) with [47; 49; 57; 57; 51; 32; 70; 50; 41].
  assert (X : c = 65 \/ c = 66 \/ c = 68 \/ c = 69 \/ c = 70 \/ c = 71 \/ c = 72 \/ c = 73 \/ c = 74 \/ c = 75 \/ c = 76 \/ c = 77 \/ c = 78 \/ c = 79 \/ c = 81 \/ c = 82 \/ c = 83 \/ c = 84 \/ c = 85 \/ c = 86 \/ c = 87 \/ c = 88 \/ c = 89 \/ c = 90) by lia.
  repeat (destruct X as [-> | X]; [vm_compute; reflexivity|]). subst c. vm_compute. reflexivity.
Qed.

Lemma C68_blank_refuted_proof :
forall n, extract_periodic_name (zs "C/"%string ++ repeat 32 (S n) ++ zs "1999 X1"%string) = Ret (0, None).
Proof.
  intro n. change (zs "C/"%string) with [67; 47]. change (zs "1999 X1"%string) with [49; 57; 57; 57; 32; 88; 49]. set (s := [67; 47] ++ repeat 32 (S n) ++ [49; 57; 57; 57; 32; 88; 49]).
  assert (H : forall x, In x s -> x <> 80 /\ x <> 40). { intros x X. unfold s in X. apply in_app_or in X. destruct X as [X|X]; [cbn in X; lia|]. apply in_app_or in X. destruct X as [X|X]; [apply repeat_spec in X; lia|cbn in X; lia]. }
  unfold extract_periodic_name. rewrite permanent_none. 2:{ intros u v E. assert (I : In 80 s) by (rewrite E; apply in_or_app; right; now left). now apply H in I. }
  rewrite provisional_none. 2:{ intros u (c & d & v & E & C & D). assert (I : In c s) by (rewrite E; apply in_or_app; right; now left). destruct C as [-> | ->]; [now apply H in I|].
    destruct u as [|a [|b u]]; [unfold s in E; cbn in E; injection E as E1 E2; lia|unfold s in E; cbn in E; injection E; intros; lia|].
    unfold s in E. cbn [app] in E. injection E as _ _ E. assert (Y : In 67 (repeat 32 (S n) ++ [49; 57; 57; 57; 32; 88; 49])) by (cbn [repeat app]; rewrite E; apply in_or_app; right; now left). apply in_app_or in Y. destruct Y as [Y|Y]; [apply repeat_spec in Y; lia|cbn in Y; lia]. }
  rewrite bare_none; [reflexivity|]. intro I. now apply H in I.
Qed.

Lemma C68_huge_refuted_proof :
extract_periodic_name (zs "X (2147483648)"%string) = UB.
Proof.
  vm_compute. reflexivity.
Qed.
