(** Specification of a Niggli-reduced cell.  Independent of the program. *)
From Coq Require Import ZArith QArith Qcanon.
From Verif Require Import Mat3 QMat.
Open Scope Qc_scope.

(** |x| <= y. *)
Definition within (x y : Qc) : Prop := - y <= x /\ x <= y.
(** |x| <= |y|. *)
Definition abs_le (x y : Qc) : Prop := (0 <= y -> within x y) /\ (y <= 0 -> within x (- y)).
(** |x| <= |y| + e. *)
Definition abs_le_upto (e x y : Qc) : Prop :=
  (0 <= y -> within x (y + e)) /\ (y <= 0 -> within x (- y + e)).

(** The conditions for a Niggli cell (International Tables A, 9.2; arXiv:1203.5146) on
    A = a.a, B = b.b, C = c.c, xi = 2 b.c, eta = 2 c.a, zeta = 2 a.b:
    the cell is Buerger-reduced and the special conditions single out one Buerger cell. *)
Record niggli_cell (A B C xi eta zeta : Qc) : Prop := {
  nc_A : 0 < A;
  nc_AB : A <= B;
  nc_BC : B <= C;
  nc_xi : within xi B;
  nc_eta : within eta A;
  nc_zeta : within zeta A;
  nc_type : (0 < xi /\ 0 < eta /\ 0 < zeta) \/ (xi <= 0 /\ eta <= 0 /\ zeta <= 0);
  nc_sum : 0 <= A + B + xi + eta + zeta;
  nc_eqAB : A = B -> abs_le xi eta;
  nc_eqBC : B = C -> abs_le eta zeta;
  nc_xi_B : xi = B -> zeta <= eta + eta;
  nc_eta_A : eta = A -> zeta <= xi + xi;
  nc_zeta_A : zeta = A -> eta <= xi + xi;
  nc_xi_mB : xi = - B -> zeta = 0;
  nc_eta_mA : eta = - A -> zeta = 0;
  nc_zeta_mA : zeta = - A -> eta = 0;
  nc_sum0 : A + B + xi + eta + zeta = 0 -> A + A + (eta + eta) + zeta <= 0 }.

(** The same conditions with every comparison taken up to [e]. *)
Record niggli_cell_upto (e A B C xi eta zeta : Qc) : Prop := {
  nu_AB : A <= B + e;
  nu_BC : B <= C + e;
  nu_xi : within xi (B + e);
  nu_eta : within eta (A + e);
  nu_zeta : within zeta (A + e);
  nu_type : (e < xi /\ e < eta /\ e < zeta) \/ (xi <= e /\ eta <= e /\ zeta <= e);
  nu_sum : - e <= A + B + xi + eta + zeta;
  nu_eqAB : within (A - B) e -> abs_le_upto e xi eta;
  nu_eqBC : within (C - B) e -> abs_le_upto e eta zeta;
  nu_xi_B : within (B - xi) e -> zeta - e <= eta + eta;
  nu_eta_A : within (A - eta) e -> zeta - e <= xi + xi;
  nu_zeta_A : within (A - zeta) e -> eta - e <= xi + xi;
  nu_xi_mB : within (B + xi) e -> - e <= zeta;
  nu_eta_mA : within (A + eta) e -> - e <= zeta;
  nu_zeta_mA : within (A + zeta) e -> - e <= eta;
  nu_sum0 : within (A + B + xi + eta + zeta) e -> A + A + (eta + eta) + zeta <= e }.

(** The six parameters of the cell with basis vectors the columns of [M]. *)
Definition cell_params (P : Qc -> Qc -> Qc -> Qc -> Qc -> Qc -> Prop) (M : qmat) : Prop :=
  let G := qgram M in
  P (q11 G) (q22 G) (q33 G) (q23 G + q23 G) (q13 G + q13 G) (q12 G + q12 G).

Definition is_niggli (M : qmat) : Prop := cell_params niggli_cell M.
Definition is_niggli_upto (e : Qc) (M : qmat) : Prop := cell_params (niggli_cell_upto e) M.
