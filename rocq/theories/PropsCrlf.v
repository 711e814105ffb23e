(** * CR LF files (C03) and is_loadable (C54, GOCAD meshes). *)
From Coq Require Import ZArith List Lia Bool Ascii String.
From Verif Require Import Base Text TextFacts GocadModel MeshModel TsModel Spec GocadFacts CrlfFacts TsFacts ExNum ExCheck PropsTsVs.
Import ListNotations.
Local Open Scope string_scope.
Local Open Scope list_scope.
Local Open Scope Z_scope.

(** C03.  For every text, the CR LF version has the same outcome: same mesh, same exception,
    same failure; also for the loadability test. *)
Theorem C03_crlf_invariance :
  forall (F : Num) (text : bytes),
    read_ts F (to_crlf text) = read_ts F text /\
    read_vs F (to_crlf text) = read_vs F text /\
    read_pl F (to_crlf text) = read_pl F text.
Proof.
  intros F text. pose proof (open_crlf text) as H. pose proof (Rs_length _ _ H) as L.
  unfold read_ts, read_vs, read_pl. rewrite <- L.
  repeat split; symmetry.
  - now apply R_read_ts_loop.
  - now apply R_read_vs_loop.
  - now apply R_read_pl_loop.
Qed.
Print Assumptions C03_crlf_invariance.
Example C03_instance :
  to_crlf (write_ts ex_surface) <> write_ts ex_surface /\
  mesh_is zzz_eqb (read_ts ExNum (to_crlf (write_ts ex_surface))) (Some (lit "my surface"))
    [(0, 0, 0); (10, 0, -5); (0, 10, 7); (10, 10, 1)] [(0, 1, 2); (2, 1, 3)]
    [(lit "my prop", [[0]; [3]; [6]; [9]])] = true.
Proof.
  split.
  - intros E. apply beq_eq in E. vm_compute in E. discriminate.
  - vm_compute. reflexivity.
Qed.
