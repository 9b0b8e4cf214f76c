(* The published REST2 component functions (C. Gueymard, "REST2: High-performance solar radiation
   model for cloudless-sky irradiance...", Solar Energy 82 (2008) 272-285, cited in rest.py 31 and
   198), independent of the model: each is a coefficient list. *)
From Coq Require Import Reals List.
Import ListNotations.
Local Open Scope R_scope.

(* ---------------------------------------------------------------- REST2 (Gueymard 2008) *)
(* The published parametrisation consists of ratios of polynomials; [rat n d x] is the ratio
   with coefficient lists n and d, lowest degree first. *)
Definition poly (c : list R) (x : R) : R := fold_right (fun a acc => a + x * acc) 0 c.
Definition rat (n d : list R) (x : R) : R := poly n x / poly d x.

Definition rest2_TR1 (m : R) : R := rat [1; 1.8169; 0.033454] [1; 2.063; 0.31978] m.
Definition rest2_TR2 (m : R) : R := rat [1; -0.010394] [1; 0; -0.00011042] m.
Definition rest2_Tg1 (m : R) : R := rat [1; 0.95885; 0.012871] [1; 0.96321; 0.015455] m.
Definition rest2_Tg2 (m : R) : R := rat [1; 0.27284; -0.00063699] [1; 0.30306] m.
(* u: reduced ozone pathlength, atm-cm *)
Definition rest2_To1 (m u : R) : R :=
  let f1 := u * rat [10.979; -8.5421] [1; 2.0115; 40.189] u in
  let f2 := u * rat [-0.027589; -0.005138] [1; -2.4857; 13.942] u in
  let f3 := u * rat [10.995; -5.5001] [1; 1.6784; 42.406] u in
  rat [1; f1; f2] [1; f3] m.
(* u: reduced NO2 pathlength, atm-cm *)
Definition rest2_Tn1 (m u : R) : R :=
  let g1 := rat [0.17499; 41.654; -2146.4] [1; 0; 22295] u in
  let g2 := u * rat [-1.2134; 59.324] [1; 0; 8847.8] u in
  let g3 := rat [0.17499; 61.658; 9196.4] [1; 0; 74109] u in
  Rmin 1 (rat [1; g1; g2] [1; g3] m).
(* w: precipitable water, cm *)
Definition rest2_Tw1 (m w : R) : R :=
  let h1 := w * rat [0.065445; 0.00029901] [1; 1.2728] w in
  let h2 := w * rat [0.065687; 0.0013218] [1; 1.2008] w in
  rat [1; h1] [1; h2] m.
Definition rest2_Tw2 (m w : R) : R :=
  let c1 := w * rat [19.566; -1.6506; 1.0672] [1; 5.4248; 1.6005] w in
  let c2 := w * rat [0.50158; -0.14732; 0.047584] [1; 1.1811; 1.0699] w in
  let c3 := w * rat [21.286; -0.39232; 1.2692] [1; 4.8318; 1.412] w in
  let c4 := w * rat [0.70992; -0.23155; 0.096514] [1; 0.44907; 0.75425] w in
  rat [1; c1; c2] [1; c3; c4] m.
(* correction of the aerosol scattering, tau: aerosol optical depth *)
Definition rest2_F1 (m tau : R) : R :=
  let g0 := rat [3.715; 0.368; 0.036294] [1; 0; 0.0009391] m in
  let g1 := rat [-0.164; -0.72567; 0.20701] [1; 0; 0.001901] m in
  let g2 := rat [-0.052288; 0.31902; 0.17871] [1; 0; 0.0069592] m in
  rat [g0; g1] [1; g2] tau.
Definition rest2_F2 (m tau : R) : R :=
  let p := m * sqrt m in
  let h0 := poly [3.4352; 0.65267; 0.00034328] m / (1 + 0.034388 * p) in
  let h1 := poly [1.231; -1.63853; 0.20667] m / (1 + 0.1451 * p) in
  let h2 := poly [0.8889; -0.55063; 0.50152] m / (1 + 0.14865 * p) in
  rat [h0; h1] [1; h2] tau.
(* sky albedo, a and b: Angstrom's wavelength exponent and turbidity coefficient *)
Definition rest2_rhos1 (a b : R) : R :=
  (poly [0.13363; 0.00077358] a + b * rat [0.37567; 0.22946] [1; -0.10832] a)
  / (1 + b * rat [0.84057; 0.68683] [1; -0.08158] a).
Definition rest2_rhos2 (a b : R) : R :=
  (poly [0.010191; 0.00085547] a + b * rat [0.14618; 0.062758] [1; -0.19402] a)
  / (1 + b * rat [0.58101; 0.17426] [1; -0.17586] a).
(* fraction of the light scattered by air molecules that goes forward *)
Definition rest2_BR1 (m : R) : R := 0.5 * poly [0.89013; -0.049558; 0.000045721] m.
