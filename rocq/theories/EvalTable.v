(** Table of the methods of the univariate families, written by tools/gen_eval.py from preliz/distributions/*.py.
    [W outer formals module target inner]: the method is `return ptd_x(outer)`, where `def ptd_x(formals): return
    module.target(inner)`. [X] is the query point, [A k] is `self.k`. For rvs the keywords size and random_state, passed
    on as size and rng, are not in the lists. The lines of both functions are cited at each entry. *)
From Coq Require Import List String.
From Verif Require Import FamModel.
Import ListNotations.
Open Scope string_scope.

Inductive method := Mpdf | Mcdf | Mppf | Mlogpdf | Msf | Misf | Mlogcdf | Mlogsf | Mlogisf | Mentropy | Mmean | Mmedian | Mmode | Mvar | Mstd | Mskewness | Mkurtosis | Mlmoment1 | Mlmoment2 | Mlmoment3 | Mlmoment4 | Mrvs.
Inductive arg := X | A (k : string).
Record wrapper := W { outer : list arg; formals : list string; library : string; target : method; inner : list string }.

(** asymmetric_laplace.py *)
Definition wrap_AsymmetricLaplace (m : method) : option wrapper :=
  match m with
  | Mpdf => Some (W [X; A "mu"; A "b"; A "kappa"] ["x"; "mu"; "b"; "kappa"] "asymmetriclaplace" Mpdf ["x"; "mu"; "b"; "kappa"]) (* asymmetric_laplace.py 104-105, 167-168 *)
  | Mcdf => Some (W [X; A "mu"; A "b"; A "kappa"] ["x"; "mu"; "b"; "kappa"] "asymmetriclaplace" Mcdf ["x"; "mu"; "b"; "kappa"]) (* asymmetric_laplace.py 107-108, 172-173 *)
  | Mppf => Some (W [X; A "mu"; A "b"; A "kappa"] ["q"; "mu"; "b"; "kappa"] "asymmetriclaplace" Mppf ["q"; "mu"; "b"; "kappa"]) (* asymmetric_laplace.py 110-111, 177-178 *)
  | Mlogpdf => Some (W [X; A "mu"; A "b"; A "kappa"] ["x"; "mu"; "b"; "kappa"] "asymmetriclaplace" Mlogpdf ["x"; "mu"; "b"; "kappa"]) (* asymmetric_laplace.py 113-114, 182-183 *)
  | Mentropy => Some (W [A "mu"; A "b"; A "kappa"] ["mu"; "b"; "kappa"] "asymmetriclaplace" Mentropy ["mu"; "b"; "kappa"]) (* asymmetric_laplace.py 116-117, 187-188 *)
  | Mmean => Some (W [A "mu"; A "b"; A "kappa"] ["mu"; "b"; "kappa"] "asymmetriclaplace" Mmean ["mu"; "b"; "kappa"]) (* asymmetric_laplace.py 122-123, 192-193 *)
  | Mmedian => Some (W [A "mu"; A "b"; A "kappa"] ["mu"; "b"; "kappa"] "asymmetriclaplace" Mmedian ["mu"; "b"; "kappa"]) (* asymmetric_laplace.py 119-120, 202-203 *)
  | Mmode => Some (W [A "mu"; A "b"; A "kappa"] ["mu"; "b"; "kappa"] "asymmetriclaplace" Mmode ["mu"; "b"; "kappa"]) (* asymmetric_laplace.py 125-126, 197-198 *)
  | Mvar => Some (W [A "mu"; A "b"; A "kappa"] ["mu"; "b"; "kappa"] "asymmetriclaplace" Mvar ["mu"; "b"; "kappa"]) (* asymmetric_laplace.py 128-129, 207-208 *)
  | Mstd => Some (W [A "mu"; A "b"; A "kappa"] ["mu"; "b"; "kappa"] "asymmetriclaplace" Mstd ["mu"; "b"; "kappa"]) (* asymmetric_laplace.py 131-132, 212-213 *)
  | Mskewness => Some (W [A "mu"; A "b"; A "kappa"] ["mu"; "b"; "kappa"] "asymmetriclaplace" Mskewness ["mu"; "b"; "kappa"]) (* asymmetric_laplace.py 134-135, 217-218 *)
  | Mkurtosis => Some (W [A "mu"; A "b"; A "kappa"] ["mu"; "b"; "kappa"] "asymmetriclaplace" Mkurtosis ["mu"; "b"; "kappa"]) (* asymmetric_laplace.py 137-138, 222-223 *)
  | Mlmoment1 => Some (W [A "mu"; A "b"; A "kappa"] ["mu"; "b"; "kappa"] "asymmetriclaplace" Mlmoment1 ["mu"; "b"; "kappa"]) (* asymmetric_laplace.py 140-141, 227-228 *)
  | Mlmoment2 => Some (W [A "mu"; A "b"; A "kappa"] ["mu"; "b"; "kappa"] "asymmetriclaplace" Mlmoment2 ["mu"; "b"; "kappa"]) (* asymmetric_laplace.py 143-144, 232-233 *)
  | Mlmoment3 => Some (W [A "mu"; A "b"; A "kappa"] ["mu"; "b"; "kappa"] "asymmetriclaplace" Mlmoment3 ["mu"; "b"; "kappa"]) (* asymmetric_laplace.py 146-147, 237-238 *)
  | Mlmoment4 => Some (W [A "mu"; A "b"; A "kappa"] ["mu"; "b"; "kappa"] "asymmetriclaplace" Mlmoment4 ["mu"; "b"; "kappa"]) (* asymmetric_laplace.py 149-150, 242-243 *)
  | Mrvs => Some (W [A "mu"; A "b"; A "kappa"] ["mu"; "b"; "kappa"] "asymmetriclaplace" Mrvs ["mu"; "b"; "kappa"]) (* asymmetric_laplace.py 152-154, 247-248 *)
  | _ => None
  end.

(** bernoulli.py *)
Definition wrap_Bernoulli (m : method) : option wrapper :=
  match m with
  | Mpdf => Some (W [X; A "p"] ["x"; "p"] "bernoulli" Mpdf ["x"; "p"]) (* bernoulli.py 97-98, 151-152 *)
  | Mcdf => Some (W [X; A "p"] ["x"; "p"] "bernoulli" Mcdf ["x"; "p"]) (* bernoulli.py 100-101, 156-157 *)
  | Mppf => Some (W [X; A "p"] ["q"; "p"] "bernoulli" Mppf ["q"; "p"]) (* bernoulli.py 103-104, 161-162 *)
  | Mlogpdf => Some (W [X; A "p"] ["x"; "p"] "bernoulli" Mlogpdf ["x"; "p"]) (* bernoulli.py 106-107, 166-167 *)
  | Mentropy => Some (W [A "p"] ["p"] "bernoulli" Mentropy ["p"]) (* bernoulli.py 109-110, 171-172 *)
  | Mmean => Some (W [A "p"] ["p"] "bernoulli" Mmean ["p"]) (* bernoulli.py 112-113, 176-177 *)
  | Mmedian => Some (W [A "p"] ["p"] "bernoulli" Mmedian ["p"]) (* bernoulli.py 118-119, 186-187 *)
  | Mmode => Some (W [A "p"] ["p"] "bernoulli" Mmode ["p"]) (* bernoulli.py 115-116, 181-182 *)
  | Mvar => Some (W [A "p"] ["p"] "bernoulli" Mvar ["p"]) (* bernoulli.py 121-122, 191-192 *)
  | Mstd => Some (W [A "p"] ["p"] "bernoulli" Mstd ["p"]) (* bernoulli.py 124-125, 196-197 *)
  | Mskewness => Some (W [A "p"] ["p"] "bernoulli" Mskewness ["p"]) (* bernoulli.py 127-128, 201-202 *)
  | Mkurtosis => Some (W [A "p"] ["p"] "bernoulli" Mkurtosis ["p"]) (* bernoulli.py 130-131, 206-207 *)
  | Mlmoment1 => Some (W [A "p"] ["p"] "bernoulli" Mlmoment1 ["p"]) (* bernoulli.py 133-134, 211-212 *)
  | Mlmoment2 => Some (W [A "p"] ["p"] "bernoulli" Mlmoment2 ["p"]) (* bernoulli.py 136-137, 216-217 *)
  | Mlmoment3 => Some (W [A "p"] ["p"] "bernoulli" Mlmoment3 ["p"]) (* bernoulli.py 139-140, 221-222 *)
  | Mlmoment4 => Some (W [A "p"] ["p"] "bernoulli" Mlmoment4 ["p"]) (* bernoulli.py 142-143, 226-227 *)
  | Mrvs => Some (W [A "p"] ["p"] "bernoulli" Mrvs ["p"]) (* bernoulli.py 145-147, 231-232 *)
  | _ => None
  end.

(** beta.py *)
Definition wrap_Beta (m : method) : option wrapper :=
  match m with
  | Mpdf => Some (W [X; A "alpha"; A "beta"] ["x"; "alpha"; "beta"] "beta" Mpdf ["x"; "alpha"; "beta"]) (* beta.py 153-154, 222-223 *)
  | Mcdf => Some (W [X; A "alpha"; A "beta"] ["x"; "alpha"; "beta"] "beta" Mcdf ["x"; "alpha"; "beta"]) (* beta.py 156-157, 227-228 *)
  | Mppf => Some (W [X; A "alpha"; A "beta"] ["q"; "alpha"; "beta"] "beta" Mppf ["q"; "alpha"; "beta"]) (* beta.py 159-160, 232-233 *)
  | Mlogpdf => Some (W [X; A "alpha"; A "beta"] ["x"; "alpha"; "beta"] "beta" Mlogpdf ["x"; "alpha"; "beta"]) (* beta.py 168-169, 247-248 *)
  | Msf => Some (W [X; A "alpha"; A "beta"] ["x"; "alpha"; "beta"] "beta" Msf ["x"; "alpha"; "beta"]) (* beta.py 162-163, 237-238 *)
  | Misf => Some (W [X; A "alpha"; A "beta"] ["q"; "alpha"; "beta"] "beta" Misf ["q"; "alpha"; "beta"]) (* beta.py 165-166, 242-243 *)
  | Mlogcdf => Some (W [X; A "alpha"; A "beta"] ["x"; "alpha"; "beta"] "beta" Mlogcdf ["x"; "alpha"; "beta"]) (* beta.py 171-172, 252-253 *)
  | Mlogsf => Some (W [X; A "alpha"; A "beta"] ["x"; "alpha"; "beta"] "beta" Mlogsf ["x"; "alpha"; "beta"]) (* beta.py 174-175, 257-258 *)
  | Mlogisf => Some (W [X; A "alpha"; A "beta"] ["q"; "alpha"; "beta"] "beta" Mlogisf ["q"; "alpha"; "beta"]) (* beta.py 177-178, 262-263 *)
  | Mentropy => Some (W [A "alpha"; A "beta"] ["alpha"; "beta"] "beta" Mentropy ["alpha"; "beta"]) (* beta.py 180-181, 267-268 *)
  | Mmean => Some (W [A "alpha"; A "beta"] ["alpha"; "beta"] "beta" Mmean ["alpha"; "beta"]) (* beta.py 183-184, 272-273 *)
  | Mmedian => Some (W [A "alpha"; A "beta"] ["alpha"; "beta"] "beta" Mmedian ["alpha"; "beta"]) (* beta.py 189-190, 282-283 *)
  | Mmode => Some (W [A "alpha"; A "beta"] ["alpha"; "beta"] "beta" Mmode ["alpha"; "beta"]) (* beta.py 186-187, 277-278 *)
  | Mvar => Some (W [A "alpha"; A "beta"] ["alpha"; "beta"] "beta" Mvar ["alpha"; "beta"]) (* beta.py 192-193, 287-288 *)
  | Mstd => Some (W [A "alpha"; A "beta"] ["alpha"; "beta"] "beta" Mstd ["alpha"; "beta"]) (* beta.py 195-196, 292-293 *)
  | Mskewness => Some (W [A "alpha"; A "beta"] ["alpha"; "beta"] "beta" Mskewness ["alpha"; "beta"]) (* beta.py 198-199, 297-298 *)
  | Mkurtosis => Some (W [A "alpha"; A "beta"] ["alpha"; "beta"] "beta" Mkurtosis ["alpha"; "beta"]) (* beta.py 201-202, 302-303 *)
  | Mlmoment1 => Some (W [A "alpha"; A "beta"] ["alpha"; "beta"] "beta" Mlmoment1 ["alpha"; "beta"]) (* beta.py 204-205, 307-308 *)
  | Mlmoment2 => Some (W [A "alpha"; A "beta"] ["alpha"; "beta"] "beta" Mlmoment2 ["alpha"; "beta"]) (* beta.py 207-208, 312-313 *)
  | Mlmoment3 => Some (W [A "alpha"; A "beta"] ["alpha"; "beta"] "beta" Mlmoment3 ["alpha"; "beta"]) (* beta.py 210-211, 317-318 *)
  | Mlmoment4 => Some (W [A "alpha"; A "beta"] ["alpha"; "beta"] "beta" Mlmoment4 ["alpha"; "beta"]) (* beta.py 213-214, 322-323 *)
  | Mrvs => Some (W [A "alpha"; A "beta"] ["alpha"; "beta"] "beta" Mrvs ["alpha"; "beta"]) (* beta.py 216-218, 327-328 *)
  end.

(** betabinomial.py *)
Definition wrap_BetaBinomial (m : method) : option wrapper :=
  match m with
  | Mpdf => Some (W [X; A "n"; A "alpha"; A "beta"] ["x"; "n"; "alpha"; "beta"] "betabinomial" Mpdf ["x"; "n"; "alpha"; "beta"]) (* betabinomial.py 77-78, 137-138 *)
  | Mcdf => Some (W [X; A "n"; A "alpha"; A "beta"] ["x"; "n"; "alpha"; "beta"] "betabinomial" Mcdf ["x"; "n"; "alpha"; "beta"]) (* betabinomial.py 80-81, 142-143 *)
  | Mppf => Some (W [X; A "n"; A "alpha"; A "beta"] ["q"; "n"; "alpha"; "beta"] "betabinomial" Mppf ["q"; "n"; "alpha"; "beta"]) (* betabinomial.py 83-84, 147-148 *)
  | Mlogpdf => Some (W [X; A "n"; A "alpha"; A "beta"] ["x"; "n"; "alpha"; "beta"] "betabinomial" Mlogpdf ["x"; "n"; "alpha"; "beta"]) (* betabinomial.py 86-87, 152-153 *)
  | Mentropy => Some (W [A "n"; A "alpha"; A "beta"] ["n"; "alpha"; "beta"] "betabinomial" Mentropy ["n"; "alpha"; "beta"]) (* betabinomial.py 89-90, 157-158 *)
  | Mmean => Some (W [A "n"; A "alpha"; A "beta"] ["n"; "alpha"; "beta"] "betabinomial" Mmean ["n"; "alpha"; "beta"]) (* betabinomial.py 92-93, 162-163 *)
  | Mmedian => Some (W [A "n"; A "alpha"; A "beta"] ["n"; "alpha"; "beta"] "betabinomial" Mmedian ["n"; "alpha"; "beta"]) (* betabinomial.py 98-99, 172-173 *)
  | Mmode => Some (W [A "n"; A "alpha"; A "beta"] ["n"; "alpha"; "beta"] "betabinomial" Mmode ["n"; "alpha"; "beta"]) (* betabinomial.py 95-96, 167-168 *)
  | Mvar => Some (W [A "n"; A "alpha"; A "beta"] ["n"; "alpha"; "beta"] "betabinomial" Mvar ["n"; "alpha"; "beta"]) (* betabinomial.py 101-102, 177-178 *)
  | Mstd => Some (W [A "n"; A "alpha"; A "beta"] ["n"; "alpha"; "beta"] "betabinomial" Mstd ["n"; "alpha"; "beta"]) (* betabinomial.py 104-105, 182-183 *)
  | Mskewness => Some (W [A "n"; A "alpha"; A "beta"] ["n"; "alpha"; "beta"] "betabinomial" Mskewness ["n"; "alpha"; "beta"]) (* betabinomial.py 107-108, 187-188 *)
  | Mkurtosis => Some (W [A "n"; A "alpha"; A "beta"] ["n"; "alpha"; "beta"] "betabinomial" Mkurtosis ["n"; "alpha"; "beta"]) (* betabinomial.py 110-111, 192-193 *)
  | Mlmoment1 => Some (W [A "n"; A "alpha"; A "beta"] ["n"; "alpha"; "beta"] "betabinomial" Mlmoment1 ["n"; "alpha"; "beta"]) (* betabinomial.py 113-114, 197-198 *)
  | Mlmoment2 => Some (W [A "n"; A "alpha"; A "beta"] ["n"; "alpha"; "beta"] "betabinomial" Mlmoment2 ["n"; "alpha"; "beta"]) (* betabinomial.py 116-117, 202-203 *)
  | Mlmoment3 => Some (W [A "n"; A "alpha"; A "beta"] ["n"; "alpha"; "beta"] "betabinomial" Mlmoment3 ["n"; "alpha"; "beta"]) (* betabinomial.py 119-120, 207-208 *)
  | Mlmoment4 => Some (W [A "n"; A "alpha"; A "beta"] ["n"; "alpha"; "beta"] "betabinomial" Mlmoment4 ["n"; "alpha"; "beta"]) (* betabinomial.py 122-123, 212-213 *)
  | Mrvs => Some (W [A "n"; A "alpha"; A "beta"] ["n"; "alpha"; "beta"] "betabinomial" Mrvs ["n"; "alpha"; "beta"]) (* betabinomial.py 125-127, 217-218 *)
  | _ => None
  end.

(** betascaled.py *)
Definition wrap_BetaScaled (m : method) : option wrapper :=
  match m with
  | Mpdf => Some (W [X; A "alpha"; A "beta"; A "lower"; A "upper"] ["x"; "alpha"; "beta"; "lower"; "upper"] "betascaled" Mpdf ["x"; "alpha"; "beta"; "lower"; "upper"]) (* betascaled.py 111-112, 180-181 *)
  | Mcdf => Some (W [X; A "alpha"; A "beta"; A "lower"; A "upper"] ["x"; "alpha"; "beta"; "lower"; "upper"] "betascaled" Mcdf ["x"; "alpha"; "beta"; "lower"; "upper"]) (* betascaled.py 114-115, 185-186 *)
  | Mppf => Some (W [X; A "alpha"; A "beta"; A "lower"; A "upper"] ["q"; "alpha"; "beta"; "lower"; "upper"] "betascaled" Mppf ["q"; "alpha"; "beta"; "lower"; "upper"]) (* betascaled.py 117-118, 190-191 *)
  | Mlogpdf => Some (W [X; A "alpha"; A "beta"; A "lower"; A "upper"] ["x"; "alpha"; "beta"; "lower"; "upper"] "betascaled" Mlogpdf ["x"; "alpha"; "beta"; "lower"; "upper"]) (* betascaled.py 126-127, 205-206 *)
  | Msf => Some (W [X; A "alpha"; A "beta"; A "lower"; A "upper"] ["x"; "alpha"; "beta"; "lower"; "upper"] "betascaled" Msf ["x"; "alpha"; "beta"; "lower"; "upper"]) (* betascaled.py 120-121, 195-196 *)
  | Misf => Some (W [X; A "alpha"; A "beta"; A "lower"; A "upper"] ["q"; "alpha"; "beta"; "lower"; "upper"] "betascaled" Misf ["q"; "alpha"; "beta"; "lower"; "upper"]) (* betascaled.py 123-124, 200-201 *)
  | Mlogcdf => Some (W [X; A "alpha"; A "beta"; A "lower"; A "upper"] ["x"; "alpha"; "beta"; "lower"; "upper"] "betascaled" Mlogcdf ["x"; "alpha"; "beta"; "lower"; "upper"]) (* betascaled.py 129-130, 210-211 *)
  | Mlogsf => Some (W [X; A "alpha"; A "beta"; A "lower"; A "upper"] ["x"; "alpha"; "beta"; "lower"; "upper"] "betascaled" Mlogsf ["x"; "alpha"; "beta"; "lower"; "upper"]) (* betascaled.py 132-133, 215-216 *)
  | Mlogisf => Some (W [X; A "alpha"; A "beta"; A "lower"; A "upper"] ["q"; "alpha"; "beta"; "lower"; "upper"] "betascaled" Mlogisf ["q"; "alpha"; "beta"; "lower"; "upper"]) (* betascaled.py 135-136, 220-221 *)
  | Mentropy => Some (W [A "alpha"; A "beta"; A "lower"; A "upper"] ["alpha"; "beta"; "lower"; "upper"] "betascaled" Mentropy ["alpha"; "beta"; "lower"; "upper"]) (* betascaled.py 138-139, 225-226 *)
  | Mmean => Some (W [A "alpha"; A "beta"; A "lower"; A "upper"] ["alpha"; "beta"; "lower"; "upper"] "betascaled" Mmean ["alpha"; "beta"; "lower"; "upper"]) (* betascaled.py 141-142, 230-231 *)
  | Mmedian => Some (W [A "alpha"; A "beta"; A "lower"; A "upper"] ["alpha"; "beta"; "lower"; "upper"] "betascaled" Mmedian ["alpha"; "beta"; "lower"; "upper"]) (* betascaled.py 147-148, 240-241 *)
  | Mmode => Some (W [A "alpha"; A "beta"; A "lower"; A "upper"] ["alpha"; "beta"; "lower"; "upper"] "betascaled" Mmode ["alpha"; "beta"; "lower"; "upper"]) (* betascaled.py 144-145, 235-236 *)
  | Mvar => Some (W [A "alpha"; A "beta"; A "lower"; A "upper"] ["alpha"; "beta"; "lower"; "upper"] "betascaled" Mvar ["alpha"; "beta"; "lower"; "upper"]) (* betascaled.py 150-151, 245-246 *)
  | Mstd => Some (W [A "alpha"; A "beta"; A "lower"; A "upper"] ["alpha"; "beta"; "lower"; "upper"] "betascaled" Mstd ["alpha"; "beta"; "lower"; "upper"]) (* betascaled.py 153-154, 250-251 *)
  | Mskewness => Some (W [A "alpha"; A "beta"; A "lower"; A "upper"] ["alpha"; "beta"; "lower"; "upper"] "betascaled" Mskewness ["alpha"; "beta"; "lower"; "upper"]) (* betascaled.py 156-157, 255-256 *)
  | Mkurtosis => Some (W [A "alpha"; A "beta"; A "lower"; A "upper"] ["alpha"; "beta"; "lower"; "upper"] "betascaled" Mkurtosis ["alpha"; "beta"; "lower"; "upper"]) (* betascaled.py 159-160, 260-261 *)
  | Mlmoment1 => Some (W [A "alpha"; A "beta"; A "lower"; A "upper"] ["alpha"; "beta"; "lower"; "upper"] "betascaled" Mlmoment1 ["alpha"; "beta"; "lower"; "upper"]) (* betascaled.py 162-163, 265-266 *)
  | Mlmoment2 => Some (W [A "alpha"; A "beta"; A "lower"; A "upper"] ["alpha"; "beta"; "lower"; "upper"] "betascaled" Mlmoment2 ["alpha"; "beta"; "lower"; "upper"]) (* betascaled.py 165-166, 270-271 *)
  | Mlmoment3 => Some (W [A "alpha"; A "beta"; A "lower"; A "upper"] ["alpha"; "beta"; "lower"; "upper"] "betascaled" Mlmoment3 ["alpha"; "beta"; "lower"; "upper"]) (* betascaled.py 168-169, 275-276 *)
  | Mlmoment4 => Some (W [A "alpha"; A "beta"; A "lower"; A "upper"] ["alpha"; "beta"; "lower"; "upper"] "betascaled" Mlmoment4 ["alpha"; "beta"; "lower"; "upper"]) (* betascaled.py 171-172, 280-281 *)
  | Mrvs => Some (W [A "alpha"; A "beta"; A "lower"; A "upper"] ["alpha"; "beta"; "lower"; "upper"] "betascaled" Mrvs ["alpha"; "beta"; "lower"; "upper"]) (* betascaled.py 174-176, 285-286 *)
  end.

(** binomial.py *)
Definition wrap_Binomial (m : method) : option wrapper :=
  match m with
  | Mpdf => Some (W [X; A "n"; A "p"] ["x"; "n"; "p"] "binomial" Mpdf ["x"; "n"; "p"]) (* binomial.py 80-81, 144-145 *)
  | Mcdf => Some (W [X; A "n"; A "p"] ["x"; "n"; "p"] "binomial" Mcdf ["x"; "n"; "p"]) (* binomial.py 83-84, 149-150 *)
  | Mppf => Some (W [X; A "n"; A "p"] ["q"; "n"; "p"] "binomial" Mppf ["q"; "n"; "p"]) (* binomial.py 86-87, 154-155 *)
  | Mlogpdf => Some (W [X; A "n"; A "p"] ["x"; "n"; "p"] "binomial" Mlogpdf ["x"; "n"; "p"]) (* binomial.py 89-90, 159-160 *)
  | Mentropy => Some (W [A "n"; A "p"] ["n"; "p"] "binomial" Mentropy ["n"; "p"]) (* binomial.py 92-93, 164-165 *)
  | Mmean => Some (W [A "n"; A "p"] ["n"; "p"] "binomial" Mmean ["n"; "p"]) (* binomial.py 95-96, 169-170 *)
  | Mmedian => Some (W [A "n"; A "p"] ["n"; "p"] "binomial" Mmedian ["n"; "p"]) (* binomial.py 101-102, 179-180 *)
  | Mmode => Some (W [A "n"; A "p"] ["n"; "p"] "binomial" Mmode ["n"; "p"]) (* binomial.py 98-99, 174-175 *)
  | Mvar => Some (W [A "n"; A "p"] ["n"; "p"] "binomial" Mvar ["n"; "p"]) (* binomial.py 104-105, 184-185 *)
  | Mstd => Some (W [A "n"; A "p"] ["n"; "p"] "binomial" Mstd ["n"; "p"]) (* binomial.py 107-108, 189-190 *)
  | Mskewness => Some (W [A "n"; A "p"] ["n"; "p"] "binomial" Mskewness ["n"; "p"]) (* binomial.py 110-111, 194-195 *)
  | Mkurtosis => Some (W [A "n"; A "p"] ["n"; "p"] "binomial" Mkurtosis ["n"; "p"]) (* binomial.py 113-114, 199-200 *)
  | Mlmoment1 => Some (W [A "n"; A "p"] ["n"; "p"] "binomial" Mlmoment1 ["n"; "p"]) (* binomial.py 116-117, 204-205 *)
  | Mlmoment2 => Some (W [A "n"; A "p"] ["n"; "p"] "binomial" Mlmoment2 ["n"; "p"]) (* binomial.py 119-120, 209-210 *)
  | Mlmoment3 => Some (W [A "n"; A "p"] ["n"; "p"] "binomial" Mlmoment3 ["n"; "p"]) (* binomial.py 122-123, 214-215 *)
  | Mlmoment4 => Some (W [A "n"; A "p"] ["n"; "p"] "binomial" Mlmoment4 ["n"; "p"]) (* binomial.py 125-126, 219-220 *)
  | Mrvs => Some (W [A "n"; A "p"] ["n"; "p"] "binomial" Mrvs ["n"; "p"]) (* binomial.py 128-130, 224-225 *)
  | _ => None
  end.

(** cauchy.py *)
Definition wrap_Cauchy (m : method) : option wrapper :=
  match m with
  | Mpdf => Some (W [X; A "alpha"; A "beta"] ["x"; "alpha"; "beta"] "cauchy" Mpdf ["x"; "alpha"; "beta"]) (* cauchy.py 65-66, 131-132 *)
  | Mcdf => Some (W [X; A "alpha"; A "beta"] ["x"; "alpha"; "beta"] "cauchy" Mcdf ["x"; "alpha"; "beta"]) (* cauchy.py 68-69, 136-137 *)
  | Mppf => Some (W [X; A "alpha"; A "beta"] ["q"; "alpha"; "beta"] "cauchy" Mppf ["q"; "alpha"; "beta"]) (* cauchy.py 71-72, 141-142 *)
  | Mlogpdf => Some (W [X; A "alpha"; A "beta"] ["x"; "alpha"; "beta"] "cauchy" Mlogpdf ["x"; "alpha"; "beta"]) (* cauchy.py 74-75, 146-147 *)
  | Mlogcdf => Some (W [X; A "alpha"; A "beta"] ["x"; "alpha"; "beta"] "cauchy" Mlogcdf ["x"; "alpha"; "beta"]) (* cauchy.py 113-114, 211-212 *)
  | Mlogsf => Some (W [X; A "alpha"; A "beta"] ["x"; "alpha"; "beta"] "cauchy" Mlogsf ["x"; "alpha"; "beta"]) (* cauchy.py 116-117, 216-217 *)
  | Mentropy => Some (W [A "alpha"; A "beta"] ["alpha"; "beta"] "cauchy" Mentropy ["alpha"; "beta"]) (* cauchy.py 77-78, 151-152 *)
  | Mmean => Some (W [A "alpha"; A "beta"] ["alpha"; "beta"] "cauchy" Mmean ["alpha"; "beta"]) (* cauchy.py 80-81, 156-157 *)
  | Mmedian => Some (W [A "alpha"; A "beta"] ["alpha"; "beta"] "cauchy" Mmedian ["alpha"; "beta"]) (* cauchy.py 86-87, 166-167 *)
  | Mmode => Some (W [A "alpha"; A "beta"] ["alpha"; "beta"] "cauchy" Mmode ["alpha"; "beta"]) (* cauchy.py 83-84, 161-162 *)
  | Mvar => Some (W [A "alpha"; A "beta"] ["alpha"; "beta"] "cauchy" Mvar ["alpha"; "beta"]) (* cauchy.py 89-90, 171-172 *)
  | Mstd => Some (W [A "alpha"; A "beta"] ["alpha"; "beta"] "cauchy" Mstd ["alpha"; "beta"]) (* cauchy.py 92-93, 176-177 *)
  | Mskewness => Some (W [A "alpha"; A "beta"] ["alpha"; "beta"] "cauchy" Mskewness ["alpha"; "beta"]) (* cauchy.py 95-96, 181-182 *)
  | Mkurtosis => Some (W [A "alpha"; A "beta"] ["alpha"; "beta"] "cauchy" Mkurtosis ["alpha"; "beta"]) (* cauchy.py 98-99, 186-187 *)
  | Mlmoment1 => Some (W [A "alpha"; A "beta"] ["alpha"; "beta"] "cauchy" Mlmoment1 ["alpha"; "beta"]) (* cauchy.py 101-102, 191-192 *)
  | Mlmoment2 => Some (W [A "alpha"; A "beta"] ["alpha"; "beta"] "cauchy" Mlmoment2 ["alpha"; "beta"]) (* cauchy.py 104-105, 196-197 *)
  | Mlmoment3 => Some (W [A "alpha"; A "beta"] ["alpha"; "beta"] "cauchy" Mlmoment3 ["alpha"; "beta"]) (* cauchy.py 107-108, 201-202 *)
  | Mlmoment4 => Some (W [A "alpha"; A "beta"] ["alpha"; "beta"] "cauchy" Mlmoment4 ["alpha"; "beta"]) (* cauchy.py 110-111, 206-207 *)
  | Mrvs => Some (W [A "alpha"; A "beta"] ["alpha"; "beta"] "cauchy" Mrvs ["alpha"; "beta"]) (* cauchy.py 119-121, 221-222 *)
  | _ => None
  end.

(** chi_squared.py *)
Definition wrap_ChiSquared (m : method) : option wrapper :=
  match m with
  | Mpdf => Some (W [X; A "nu"] ["x"; "nu"] "chisquared" Mpdf ["x"; "nu"]) (* chi_squared.py 62-63, 122-123 *)
  | Mcdf => Some (W [X; A "nu"] ["x"; "nu"] "chisquared" Mcdf ["x"; "nu"]) (* chi_squared.py 65-66, 127-128 *)
  | Mppf => Some (W [X; A "nu"] ["q"; "nu"] "chisquared" Mppf ["q"; "nu"]) (* chi_squared.py 68-69, 132-133 *)
  | Mlogpdf => Some (W [X; A "nu"] ["x"; "nu"] "chisquared" Mlogpdf ["x"; "nu"]) (* chi_squared.py 71-72, 137-138 *)
  | Mentropy => Some (W [A "nu"] ["nu"] "chisquared" Mentropy ["nu"]) (* chi_squared.py 74-75, 142-143 *)
  | Mmean => Some (W [A "nu"] ["nu"] "chisquared" Mmean ["nu"]) (* chi_squared.py 77-78, 147-148 *)
  | Mmedian => Some (W [A "nu"] ["nu"] "chisquared" Mmedian ["nu"]) (* chi_squared.py 83-84, 157-158 *)
  | Mmode => Some (W [A "nu"] ["nu"] "chisquared" Mmode ["nu"]) (* chi_squared.py 80-81, 152-153 *)
  | Mvar => Some (W [A "nu"] ["nu"] "chisquared" Mvar ["nu"]) (* chi_squared.py 86-87, 162-163 *)
  | Mstd => Some (W [A "nu"] ["nu"] "chisquared" Mstd ["nu"]) (* chi_squared.py 89-90, 167-168 *)
  | Mskewness => Some (W [A "nu"] ["nu"] "chisquared" Mskewness ["nu"]) (* chi_squared.py 92-93, 172-173 *)
  | Mkurtosis => Some (W [A "nu"] ["nu"] "chisquared" Mkurtosis ["nu"]) (* chi_squared.py 95-96, 177-178 *)
  | Mlmoment1 => Some (W [A "nu"] ["nu"] "chisquared" Mlmoment1 ["nu"]) (* chi_squared.py 98-99, 182-183 *)
  | Mlmoment2 => Some (W [A "nu"] ["nu"] "chisquared" Mlmoment2 ["nu"]) (* chi_squared.py 101-102, 187-188 *)
  | Mlmoment3 => Some (W [A "nu"] ["nu"] "chisquared" Mlmoment3 ["nu"]) (* chi_squared.py 104-105, 192-193 *)
  | Mlmoment4 => Some (W [A "nu"] ["nu"] "chisquared" Mlmoment4 ["nu"]) (* chi_squared.py 107-108, 197-198 *)
  | Mrvs => Some (W [A "nu"] ["nu"] "chisquared" Mrvs ["nu"]) (* chi_squared.py 110-112, 202-203 *)
  | _ => None
  end.

(** discrete_uniform.py *)
Definition wrap_DiscreteUniform (m : method) : option wrapper :=
  match m with
  | Mpdf => Some (W [X; A "lower"; A "upper"] ["x"; "lower"; "upper"] "discreteuniform" Mpdf ["x"; "lower"; "upper"]) (* discrete_uniform.py 72-73, 137-138 *)
  | Mcdf => Some (W [X; A "lower"; A "upper"] ["x"; "lower"; "upper"] "discreteuniform" Mcdf ["x"; "lower"; "upper"]) (* discrete_uniform.py 75-76, 142-143 *)
  | Mppf => Some (W [X; A "lower"; A "upper"] ["q"; "lower"; "upper"] "discreteuniform" Mppf ["q"; "lower"; "upper"]) (* discrete_uniform.py 78-79, 147-148 *)
  | Mlogpdf => Some (W [X; A "lower"; A "upper"] ["x"; "lower"; "upper"] "discreteuniform" Mlogpdf ["x"; "lower"; "upper"]) (* discrete_uniform.py 81-82, 152-153 *)
  | Mentropy => Some (W [A "lower"; A "upper"] ["lower"; "upper"] "discreteuniform" Mentropy ["lower"; "upper"]) (* discrete_uniform.py 84-85, 157-158 *)
  | Mmean => Some (W [A "lower"; A "upper"] ["lower"; "upper"] "discreteuniform" Mmean ["lower"; "upper"]) (* discrete_uniform.py 87-88, 162-163 *)
  | Mmedian => Some (W [A "lower"; A "upper"] ["lower"; "upper"] "discreteuniform" Mmedian ["lower"; "upper"]) (* discrete_uniform.py 93-94, 172-173 *)
  | Mmode => Some (W [A "lower"; A "upper"] ["lower"; "upper"] "discreteuniform" Mmode ["lower"; "upper"]) (* discrete_uniform.py 90-91, 167-168 *)
  | Mvar => Some (W [A "lower"; A "upper"] ["lower"; "upper"] "discreteuniform" Mvar ["lower"; "upper"]) (* discrete_uniform.py 96-97, 177-178 *)
  | Mstd => Some (W [A "lower"; A "upper"] ["lower"; "upper"] "discreteuniform" Mstd ["lower"; "upper"]) (* discrete_uniform.py 99-100, 182-183 *)
  | Mskewness => Some (W [A "lower"; A "upper"] ["lower"; "upper"] "discreteuniform" Mskewness ["lower"; "upper"]) (* discrete_uniform.py 102-103, 187-188 *)
  | Mkurtosis => Some (W [A "lower"; A "upper"] ["lower"; "upper"] "discreteuniform" Mkurtosis ["lower"; "upper"]) (* discrete_uniform.py 105-106, 192-193 *)
  | Mlmoment1 => Some (W [A "lower"; A "upper"] ["lower"; "upper"] "discreteuniform" Mlmoment1 ["lower"; "upper"]) (* discrete_uniform.py 108-109, 197-198 *)
  | Mlmoment2 => Some (W [A "lower"; A "upper"] ["lower"; "upper"] "discreteuniform" Mlmoment2 ["lower"; "upper"]) (* discrete_uniform.py 111-112, 202-203 *)
  | Mlmoment3 => Some (W [A "lower"; A "upper"] ["lower"; "upper"] "discreteuniform" Mlmoment3 ["lower"; "upper"]) (* discrete_uniform.py 114-115, 207-208 *)
  | Mlmoment4 => Some (W [A "lower"; A "upper"] ["lower"; "upper"] "discreteuniform" Mlmoment4 ["lower"; "upper"]) (* discrete_uniform.py 117-118, 212-213 *)
  | Mrvs => Some (W [A "lower"; A "upper"] ["lower"; "upper"] "discreteuniform" Mrvs ["lower"; "upper"]) (* discrete_uniform.py 120-122, 217-218 *)
  | _ => None
  end.

(** discrete_weibull.py *)
Definition wrap_DiscreteWeibull (m : method) : option wrapper :=
  match m with
  | Mpdf => Some (W [X; A "q"; A "beta"] ["x"; "q"; "beta"] "discreteweibull" Mpdf ["x"; "q"; "beta"]) (* discrete_weibull.py 69-70, 117-118 *)
  | Mcdf => Some (W [X; A "q"; A "beta"] ["x"; "q"; "beta"] "discreteweibull" Mcdf ["x"; "q"; "beta"]) (* discrete_weibull.py 72-73, 122-123 *)
  | Mppf => Some (W [X; A "q"; A "beta"] ["p"; "q"; "beta"] "discreteweibull" Mppf ["p"; "q"; "beta"]) (* discrete_weibull.py 75-76, 127-128 *)
  | Mlogpdf => Some (W [X; A "q"; A "beta"] ["x"; "q"; "beta"] "discreteweibull" Mlogpdf ["x"; "q"; "beta"]) (* discrete_weibull.py 78-79, 132-133 *)
  | Mentropy => Some (W [A "q"; A "beta"] ["q"; "beta"] "discreteweibull" Mentropy ["q"; "beta"]) (* discrete_weibull.py 81-82, 137-138 *)
  | Mmean => Some (W [A "q"; A "beta"] ["q"; "beta"] "discreteweibull" Mmean ["q"; "beta"]) (* discrete_weibull.py 84-85, 142-143 *)
  | Mmedian => Some (W [A "q"; A "beta"] ["q"; "beta"] "discreteweibull" Mmedian ["q"; "beta"]) (* discrete_weibull.py 87-88, 152-153 *)
  | Mmode => Some (W [A "q"; A "beta"] ["q"; "beta"] "discreteweibull" Mmode ["q"; "beta"]) (* discrete_weibull.py 102-103, 147-148 *)
  | Mvar => Some (W [A "q"; A "beta"] ["q"; "beta"] "discreteweibull" Mvar ["q"; "beta"]) (* discrete_weibull.py 90-91, 157-158 *)
  | Mstd => Some (W [A "q"; A "beta"] ["q"; "beta"] "discreteweibull" Mstd ["q"; "beta"]) (* discrete_weibull.py 93-94, 162-163 *)
  | Mskewness => Some (W [A "q"; A "beta"] ["q"; "beta"] "discreteweibull" Mskewness ["q"; "beta"]) (* discrete_weibull.py 96-97, 167-168 *)
  | Mkurtosis => Some (W [A "q"; A "beta"] ["q"; "beta"] "discreteweibull" Mkurtosis ["q"; "beta"]) (* discrete_weibull.py 99-100, 172-173 *)
  | Mrvs => Some (W [A "q"; A "beta"] ["q"; "beta"] "discreteweibull" Mrvs ["q"; "beta"]) (* discrete_weibull.py 105-107, 177-178 *)
  | _ => None
  end.

(** exgaussian.py *)
Definition wrap_ExGaussian (m : method) : option wrapper :=
  match m with
  | Mpdf => Some (W [X; A "mu"; A "sigma"; A "nu"] ["x"; "mu"; "sigma"; "nu"] "exgaussian" Mpdf ["x"; "mu"; "sigma"; "nu"]) (* exgaussian.py 80-81, 143-144 *)
  | Mcdf => Some (W [X; A "mu"; A "sigma"; A "nu"] ["x"; "mu"; "sigma"; "nu"] "exgaussian" Mcdf ["x"; "mu"; "sigma"; "nu"]) (* exgaussian.py 83-84, 148-149 *)
  | Mppf => Some (W [X; A "mu"; A "sigma"; A "nu"] ["q"; "mu"; "sigma"; "nu"] "exgaussian" Mppf ["q"; "mu"; "sigma"; "nu"]) (* exgaussian.py 86-87, 153-154 *)
  | Mlogpdf => Some (W [X; A "mu"; A "sigma"; A "nu"] ["x"; "mu"; "sigma"; "nu"] "exgaussian" Mlogpdf ["x"; "mu"; "sigma"; "nu"]) (* exgaussian.py 89-90, 158-159 *)
  | Mentropy => Some (W [A "mu"; A "sigma"; A "nu"] ["mu"; "sigma"; "nu"] "exgaussian" Mentropy ["mu"; "sigma"; "nu"]) (* exgaussian.py 92-93, 163-164 *)
  | Mmean => Some (W [A "mu"; A "sigma"; A "nu"] ["mu"; "sigma"; "nu"] "exgaussian" Mmean ["mu"; "sigma"; "nu"]) (* exgaussian.py 95-96, 168-169 *)
  | Mmedian => Some (W [A "mu"; A "sigma"; A "nu"] ["mu"; "sigma"; "nu"] "exgaussian" Mmedian ["mu"; "sigma"; "nu"]) (* exgaussian.py 98-99, 178-179 *)
  | Mvar => Some (W [A "mu"; A "sigma"; A "nu"] ["mu"; "sigma"; "nu"] "exgaussian" Mvar ["mu"; "sigma"; "nu"]) (* exgaussian.py 101-102, 183-184 *)
  | Mstd => Some (W [A "mu"; A "sigma"; A "nu"] ["mu"; "sigma"; "nu"] "exgaussian" Mstd ["mu"; "sigma"; "nu"]) (* exgaussian.py 104-105, 188-189 *)
  | Mskewness => Some (W [A "mu"; A "sigma"; A "nu"] ["mu"; "sigma"; "nu"] "exgaussian" Mskewness ["mu"; "sigma"; "nu"]) (* exgaussian.py 107-108, 193-194 *)
  | Mkurtosis => Some (W [A "mu"; A "sigma"; A "nu"] ["mu"; "sigma"; "nu"] "exgaussian" Mkurtosis ["mu"; "sigma"; "nu"]) (* exgaussian.py 110-111, 198-199 *)
  | Mlmoment1 => Some (W [A "mu"; A "sigma"; A "nu"] ["mu"; "sigma"; "nu"] "exgaussian" Mlmoment1 ["mu"; "sigma"; "nu"]) (* exgaussian.py 113-114, 203-204 *)
  | Mlmoment2 => Some (W [A "mu"; A "sigma"; A "nu"] ["mu"; "sigma"; "nu"] "exgaussian" Mlmoment2 ["mu"; "sigma"; "nu"]) (* exgaussian.py 116-117, 208-209 *)
  | Mlmoment3 => Some (W [A "mu"; A "sigma"; A "nu"] ["mu"; "sigma"; "nu"] "exgaussian" Mlmoment3 ["mu"; "sigma"; "nu"]) (* exgaussian.py 119-120, 213-214 *)
  | Mlmoment4 => Some (W [A "mu"; A "sigma"; A "nu"] ["mu"; "sigma"; "nu"] "exgaussian" Mlmoment4 ["mu"; "sigma"; "nu"]) (* exgaussian.py 122-123, 218-219 *)
  | Mrvs => Some (W [A "mu"; A "sigma"; A "nu"] ["mu"; "sigma"; "nu"] "exgaussian" Mrvs ["mu"; "sigma"; "nu"]) (* exgaussian.py 125-127, 223-224 *)
  | _ => None
  end.

(** exponential.py *)
Definition wrap_Exponential (m : method) : option wrapper :=
  match m with
  | Mpdf => Some (W [X; A "lam"] ["x"; "lam"] "exponential" Mpdf ["x"; "lam"]) (* exponential.py 85-86, 147-148 *)
  | Mcdf => Some (W [X; A "lam"] ["x"; "lam"] "exponential" Mcdf ["x"; "lam"]) (* exponential.py 88-89, 152-153 *)
  | Mppf => Some (W [X; A "lam"] ["q"; "lam"] "exponential" Mppf ["q"; "lam"]) (* exponential.py 91-92, 157-158 *)
  | Mlogpdf => Some (W [X; A "lam"] ["x"; "lam"] "exponential" Mlogpdf ["x"; "lam"]) (* exponential.py 94-95, 162-163 *)
  | Mentropy => Some (W [A "lam"] ["lam"] "exponential" Mentropy ["lam"]) (* exponential.py 97-98, 167-168 *)
  | Mmean => Some (W [A "lam"] ["lam"] "exponential" Mmean ["lam"]) (* exponential.py 103-104, 172-173 *)
  | Mmedian => Some (W [A "lam"] ["lam"] "exponential" Mmedian ["lam"]) (* exponential.py 100-101, 182-183 *)
  | Mmode => Some (W [A "lam"] ["lam"] "exponential" Mmode ["lam"]) (* exponential.py 106-107, 177-178 *)
  | Mvar => Some (W [A "lam"] ["lam"] "exponential" Mvar ["lam"]) (* exponential.py 112-113, 187-188 *)
  | Mstd => Some (W [A "lam"] ["lam"] "exponential" Mstd ["lam"]) (* exponential.py 109-110, 192-193 *)
  | Mskewness => Some (W [A "lam"] ["lam"] "exponential" Mskewness ["lam"]) (* exponential.py 115-116, 197-198 *)
  | Mkurtosis => Some (W [A "lam"] ["lam"] "exponential" Mkurtosis ["lam"]) (* exponential.py 118-119, 202-203 *)
  | Mlmoment1 => Some (W [A "lam"] ["lam"] "exponential" Mlmoment1 ["lam"]) (* exponential.py 121-122, 207-208 *)
  | Mlmoment2 => Some (W [A "lam"] ["lam"] "exponential" Mlmoment2 ["lam"]) (* exponential.py 124-125, 212-213 *)
  | Mlmoment3 => Some (W [A "lam"] ["lam"] "exponential" Mlmoment3 ["lam"]) (* exponential.py 127-128, 217-218 *)
  | Mlmoment4 => Some (W [A "lam"] ["lam"] "exponential" Mlmoment4 ["lam"]) (* exponential.py 130-131, 222-223 *)
  | Mrvs => Some (W [A "lam"] ["lam"] "exponential" Mrvs ["lam"]) (* exponential.py 133-135, 227-228 *)
  | _ => None
  end.

(** gamma.py *)
Definition wrap_Gamma (m : method) : option wrapper :=
  match m with
  | Mpdf => Some (W [X; A "alpha"; A "beta"] ["x"; "alpha"; "beta"] "gamma" Mpdf ["x"; "alpha"; "beta"]) (* gamma.py 118-119, 179-180 *)
  | Mcdf => Some (W [X; A "alpha"; A "beta"] ["x"; "alpha"; "beta"] "gamma" Mcdf ["x"; "alpha"; "beta"]) (* gamma.py 121-122, 184-185 *)
  | Mppf => Some (W [X; A "alpha"; A "beta"] ["q"; "alpha"; "beta"] "gamma" Mppf ["q"; "alpha"; "beta"]) (* gamma.py 124-125, 189-190 *)
  | Mlogpdf => Some (W [X; A "alpha"; A "beta"] ["x"; "alpha"; "beta"] "gamma" Mlogpdf ["x"; "alpha"; "beta"]) (* gamma.py 127-128, 194-195 *)
  | Mentropy => Some (W [A "alpha"; A "beta"] ["alpha"; "beta"] "gamma" Mentropy ["alpha"; "beta"]) (* gamma.py 130-131, 199-200 *)
  | Mmean => Some (W [A "alpha"; A "beta"] ["alpha"; "beta"] "gamma" Mmean ["alpha"; "beta"]) (* gamma.py 133-134, 204-205 *)
  | Mmedian => Some (W [A "alpha"; A "beta"] ["alpha"; "beta"] "gamma" Mmedian ["alpha"; "beta"]) (* gamma.py 139-140, 214-215 *)
  | Mmode => Some (W [A "alpha"; A "beta"] ["alpha"; "beta"] "gamma" Mmode ["alpha"; "beta"]) (* gamma.py 136-137, 209-210 *)
  | Mvar => Some (W [A "alpha"; A "beta"] ["alpha"; "beta"] "gamma" Mvar ["alpha"; "beta"]) (* gamma.py 142-143, 219-220 *)
  | Mstd => Some (W [A "alpha"; A "beta"] ["alpha"; "beta"] "gamma" Mstd ["alpha"; "beta"]) (* gamma.py 145-146, 224-225 *)
  | Mskewness => Some (W [A "alpha"; A "beta"] ["alpha"; "beta"] "gamma" Mskewness ["alpha"; "beta"]) (* gamma.py 148-149, 229-230 *)
  | Mkurtosis => Some (W [A "alpha"; A "beta"] ["alpha"; "beta"] "gamma" Mkurtosis ["alpha"; "beta"]) (* gamma.py 151-152, 234-235 *)
  | Mlmoment1 => Some (W [A "alpha"; A "beta"] ["alpha"; "beta"] "gamma" Mlmoment1 ["alpha"; "beta"]) (* gamma.py 154-155, 239-240 *)
  | Mlmoment2 => Some (W [A "alpha"; A "beta"] ["alpha"; "beta"] "gamma" Mlmoment2 ["alpha"; "beta"]) (* gamma.py 157-158, 244-245 *)
  | Mlmoment3 => Some (W [A "alpha"; A "beta"] ["alpha"; "beta"] "gamma" Mlmoment3 ["alpha"; "beta"]) (* gamma.py 160-161, 249-250 *)
  | Mlmoment4 => Some (W [A "alpha"; A "beta"] ["alpha"; "beta"] "gamma" Mlmoment4 ["alpha"; "beta"]) (* gamma.py 163-164, 254-255 *)
  | Mrvs => Some (W [A "alpha"; A "beta"] ["alpha"; "beta"] "gamma" Mrvs ["alpha"; "beta"]) (* gamma.py 166-168, 259-260 *)
  | _ => None
  end.

(** geometric.py *)
Definition wrap_Geometric (m : method) : option wrapper :=
  match m with
  | Mpdf => Some (W [X; A "p"] ["x"; "p"] "geometric" Mpdf ["x"; "p"]) (* geometric.py 57-58, 119-120 *)
  | Mcdf => Some (W [X; A "p"] ["x"; "p"] "geometric" Mcdf ["x"; "p"]) (* geometric.py 60-61, 124-125 *)
  | Mppf => Some (W [X; A "p"] ["q"; "p"] "geometric" Mppf ["q"; "p"]) (* geometric.py 63-64, 129-130 *)
  | Mlogpdf => Some (W [X; A "p"] ["x"; "p"] "geometric" Mlogpdf ["x"; "p"]) (* geometric.py 66-67, 134-135 *)
  | Mentropy => Some (W [A "p"] ["p"] "geometric" Mentropy ["p"]) (* geometric.py 69-70, 139-140 *)
  | Mmean => Some (W [A "p"] ["p"] "geometric" Mmean ["p"]) (* geometric.py 72-73, 144-145 *)
  | Mmedian => Some (W [A "p"] ["p"] "geometric" Mmedian ["p"]) (* geometric.py 78-79, 154-155 *)
  | Mmode => Some (W [A "p"] ["p"] "geometric" Mmode ["p"]) (* geometric.py 75-76, 149-150 *)
  | Mvar => Some (W [A "p"] ["p"] "geometric" Mvar ["p"]) (* geometric.py 81-82, 159-160 *)
  | Mstd => Some (W [A "p"] ["p"] "geometric" Mstd ["p"]) (* geometric.py 84-85, 164-165 *)
  | Mskewness => Some (W [A "p"] ["p"] "geometric" Mskewness ["p"]) (* geometric.py 87-88, 169-170 *)
  | Mkurtosis => Some (W [A "p"] ["p"] "geometric" Mkurtosis ["p"]) (* geometric.py 90-91, 174-175 *)
  | Mlmoment1 => Some (W [A "p"] ["p"] "geometric" Mlmoment1 ["p"]) (* geometric.py 93-94, 179-180 *)
  | Mlmoment2 => Some (W [A "p"] ["p"] "geometric" Mlmoment2 ["p"]) (* geometric.py 96-97, 184-185 *)
  | Mlmoment3 => Some (W [A "p"] ["p"] "geometric" Mlmoment3 ["p"]) (* geometric.py 99-100, 189-190 *)
  | Mlmoment4 => Some (W [A "p"] ["p"] "geometric" Mlmoment4 ["p"]) (* geometric.py 102-103, 194-195 *)
  | Mrvs => Some (W [A "p"] ["p"] "geometric" Mrvs ["p"]) (* geometric.py 105-107, 199-200 *)
  | _ => None
  end.

(** gumbel.py *)
Definition wrap_Gumbel (m : method) : option wrapper :=
  match m with
  | Mpdf => Some (W [X; A "mu"; A "beta"] ["x"; "mu"; "beta"] "gumbel" Mpdf ["x"; "mu"; "beta"]) (* gumbel.py 70-71, 132-133 *)
  | Mcdf => Some (W [X; A "mu"; A "beta"] ["x"; "mu"; "beta"] "gumbel" Mcdf ["x"; "mu"; "beta"]) (* gumbel.py 73-74, 137-138 *)
  | Mppf => Some (W [X; A "mu"; A "beta"] ["q"; "mu"; "beta"] "gumbel" Mppf ["q"; "mu"; "beta"]) (* gumbel.py 76-77, 142-143 *)
  | Mlogpdf => Some (W [X; A "mu"; A "beta"] ["x"; "mu"; "beta"] "gumbel" Mlogpdf ["x"; "mu"; "beta"]) (* gumbel.py 79-80, 147-148 *)
  | Mentropy => Some (W [A "mu"; A "beta"] ["mu"; "beta"] "gumbel" Mentropy ["mu"; "beta"]) (* gumbel.py 82-83, 152-153 *)
  | Mmean => Some (W [A "mu"; A "beta"] ["mu"; "beta"] "gumbel" Mmean ["mu"; "beta"]) (* gumbel.py 85-86, 157-158 *)
  | Mmedian => Some (W [A "mu"; A "beta"] ["mu"; "beta"] "gumbel" Mmedian ["mu"; "beta"]) (* gumbel.py 91-92, 167-168 *)
  | Mmode => Some (W [A "mu"; A "beta"] ["mu"; "beta"] "gumbel" Mmode ["mu"; "beta"]) (* gumbel.py 88-89, 162-163 *)
  | Mvar => Some (W [A "mu"; A "beta"] ["mu"; "beta"] "gumbel" Mvar ["mu"; "beta"]) (* gumbel.py 94-95, 172-173 *)
  | Mstd => Some (W [A "mu"; A "beta"] ["mu"; "beta"] "gumbel" Mstd ["mu"; "beta"]) (* gumbel.py 97-98, 177-178 *)
  | Mskewness => Some (W [A "mu"; A "beta"] ["mu"; "beta"] "gumbel" Mskewness ["mu"; "beta"]) (* gumbel.py 100-101, 182-183 *)
  | Mkurtosis => Some (W [A "mu"; A "beta"] ["mu"; "beta"] "gumbel" Mkurtosis ["mu"; "beta"]) (* gumbel.py 103-104, 187-188 *)
  | Mlmoment1 => Some (W [A "mu"; A "beta"] ["mu"; "beta"] "gumbel" Mlmoment1 ["mu"; "beta"]) (* gumbel.py 106-107, 192-193 *)
  | Mlmoment2 => Some (W [A "mu"; A "beta"] ["mu"; "beta"] "gumbel" Mlmoment2 ["mu"; "beta"]) (* gumbel.py 109-110, 197-198 *)
  | Mlmoment3 => Some (W [A "mu"; A "beta"] ["mu"; "beta"] "gumbel" Mlmoment3 ["mu"; "beta"]) (* gumbel.py 112-113, 202-203 *)
  | Mlmoment4 => Some (W [A "mu"; A "beta"] ["mu"; "beta"] "gumbel" Mlmoment4 ["mu"; "beta"]) (* gumbel.py 115-116, 207-208 *)
  | Mrvs => Some (W [A "mu"; A "beta"] ["mu"; "beta"] "gumbel" Mrvs ["mu"; "beta"]) (* gumbel.py 118-120, 212-213 *)
  | _ => None
  end.

(** halfcauchy.py *)
Definition wrap_HalfCauchy (m : method) : option wrapper :=
  match m with
  | Mpdf => Some (W [X; A "beta"] ["x"; "beta"] "halfcauchy" Mpdf ["x"; "beta"]) (* halfcauchy.py 59-60, 119-120 *)
  | Mcdf => Some (W [X; A "beta"] ["x"; "beta"] "halfcauchy" Mcdf ["x"; "beta"]) (* halfcauchy.py 62-63, 124-125 *)
  | Mppf => Some (W [X; A "beta"] ["q"; "beta"] "halfcauchy" Mppf ["q"; "beta"]) (* halfcauchy.py 65-66, 129-130 *)
  | Mlogpdf => Some (W [X; A "beta"] ["x"; "beta"] "halfcauchy" Mlogpdf ["x"; "beta"]) (* halfcauchy.py 68-69, 134-135 *)
  | Mentropy => Some (W [A "beta"] ["beta"] "halfcauchy" Mentropy ["beta"]) (* halfcauchy.py 71-72, 139-140 *)
  | Mmean => Some (W [A "beta"] ["beta"] "halfcauchy" Mmean ["beta"]) (* halfcauchy.py 74-75, 144-145 *)
  | Mmedian => Some (W [A "beta"] ["beta"] "halfcauchy" Mmedian ["beta"]) (* halfcauchy.py 80-81, 154-155 *)
  | Mmode => Some (W [A "beta"] ["beta"] "halfcauchy" Mmode ["beta"]) (* halfcauchy.py 77-78, 149-150 *)
  | Mvar => Some (W [A "beta"] ["beta"] "halfcauchy" Mvar ["beta"]) (* halfcauchy.py 83-84, 159-160 *)
  | Mstd => Some (W [A "beta"] ["beta"] "halfcauchy" Mstd ["beta"]) (* halfcauchy.py 86-87, 164-165 *)
  | Mskewness => Some (W [A "beta"] ["beta"] "halfcauchy" Mskewness ["beta"]) (* halfcauchy.py 89-90, 169-170 *)
  | Mkurtosis => Some (W [A "beta"] ["beta"] "halfcauchy" Mkurtosis ["beta"]) (* halfcauchy.py 92-93, 174-175 *)
  | Mlmoment1 => Some (W [A "beta"] ["beta"] "halfcauchy" Mlmoment1 ["beta"]) (* halfcauchy.py 95-96, 179-180 *)
  | Mlmoment2 => Some (W [A "beta"] ["beta"] "halfcauchy" Mlmoment2 ["beta"]) (* halfcauchy.py 98-99, 184-185 *)
  | Mlmoment3 => Some (W [A "beta"] ["beta"] "halfcauchy" Mlmoment3 ["beta"]) (* halfcauchy.py 101-102, 189-190 *)
  | Mlmoment4 => Some (W [A "beta"] ["beta"] "halfcauchy" Mlmoment4 ["beta"]) (* halfcauchy.py 104-105, 194-195 *)
  | Mrvs => Some (W [A "beta"] ["beta"] "halfcauchy" Mrvs ["beta"]) (* halfcauchy.py 107-109, 199-200 *)
  | _ => None
  end.

(** halfnormal.py *)
Definition wrap_HalfNormal (m : method) : option wrapper :=
  match m with
  | Mpdf => Some (W [X; A "sigma"] ["x"; "sigma"] "halfnormal" Mpdf ["x"; "sigma"]) (* halfnormal.py 93-94, 153-154 *)
  | Mcdf => Some (W [X; A "sigma"] ["x"; "sigma"] "halfnormal" Mcdf ["x"; "sigma"]) (* halfnormal.py 96-97, 158-159 *)
  | Mppf => Some (W [X; A "sigma"] ["q"; "sigma"] "halfnormal" Mppf ["q"; "sigma"]) (* halfnormal.py 99-100, 163-164 *)
  | Mlogpdf => Some (W [X; A "sigma"] ["x"; "sigma"] "halfnormal" Mlogpdf ["x"; "sigma"]) (* halfnormal.py 102-103, 168-169 *)
  | Mentropy => Some (W [A "sigma"] ["sigma"] "halfnormal" Mentropy ["sigma"]) (* halfnormal.py 105-106, 173-174 *)
  | Mmean => Some (W [A "sigma"] ["sigma"] "halfnormal" Mmean ["sigma"]) (* halfnormal.py 108-109, 178-179 *)
  | Mmedian => Some (W [A "sigma"] ["sigma"] "halfnormal" Mmedian ["sigma"]) (* halfnormal.py 114-115, 188-189 *)
  | Mmode => Some (W [A "sigma"] ["sigma"] "halfnormal" Mmode ["sigma"]) (* halfnormal.py 111-112, 183-184 *)
  | Mvar => Some (W [A "sigma"] ["sigma"] "halfnormal" Mvar ["sigma"]) (* halfnormal.py 117-118, 193-194 *)
  | Mstd => Some (W [A "sigma"] ["sigma"] "halfnormal" Mstd ["sigma"]) (* halfnormal.py 120-121, 198-199 *)
  | Mskewness => Some (W [A "sigma"] ["sigma"] "halfnormal" Mskewness ["sigma"]) (* halfnormal.py 123-124, 203-204 *)
  | Mkurtosis => Some (W [A "sigma"] ["sigma"] "halfnormal" Mkurtosis ["sigma"]) (* halfnormal.py 126-127, 208-209 *)
  | Mlmoment1 => Some (W [A "sigma"] ["sigma"] "halfnormal" Mlmoment1 ["sigma"]) (* halfnormal.py 129-130, 213-214 *)
  | Mlmoment2 => Some (W [A "sigma"] ["sigma"] "halfnormal" Mlmoment2 ["sigma"]) (* halfnormal.py 132-133, 218-219 *)
  | Mlmoment3 => Some (W [A "sigma"] ["sigma"] "halfnormal" Mlmoment3 ["sigma"]) (* halfnormal.py 135-136, 223-224 *)
  | Mlmoment4 => Some (W [A "sigma"] ["sigma"] "halfnormal" Mlmoment4 ["sigma"]) (* halfnormal.py 138-139, 228-229 *)
  | Mrvs => Some (W [A "sigma"] ["sigma"] "halfnormal" Mrvs ["sigma"]) (* halfnormal.py 141-143, 233-234 *)
  | _ => None
  end.

(** halfstudentt.py *)
Definition wrap_HalfStudentT (m : method) : option wrapper :=
  match m with
  | Mpdf => Some (W [X; A "nu"; A "sigma"] ["x"; "nu"; "sigma"] "halfstudentt" Mpdf ["x"; "nu"; "sigma"]) (* halfstudentt.py 113-114, 191-192 *)
  | Mcdf => Some (W [X; A "nu"; A "sigma"] ["x"; "nu"; "sigma"] "halfstudentt" Mcdf ["x"; "nu"; "sigma"]) (* halfstudentt.py 116-117, 196-197 *)
  | Mppf => Some (W [X; A "nu"; A "sigma"] ["q"; "nu"; "sigma"] "halfstudentt" Mppf ["q"; "nu"; "sigma"]) (* halfstudentt.py 119-120, 201-202 *)
  | Mlogpdf => Some (W [X; A "nu"; A "sigma"] ["x"; "nu"; "sigma"] "halfstudentt" Mlogpdf ["x"; "nu"; "sigma"]) (* halfstudentt.py 122-123, 206-207 *)
  | Mentropy => Some (W [A "nu"; A "sigma"] ["nu"; "sigma"] "halfstudentt" Mentropy ["nu"; "sigma"]) (* halfstudentt.py 125-126, 211-212 *)
  | Mmean => Some (W [A "nu"; A "sigma"] ["nu"; "sigma"] "halfstudentt" Mmean ["nu"; "sigma"]) (* halfstudentt.py 128-129, 216-217 *)
  | Mmedian => Some (W [A "nu"; A "sigma"] ["nu"; "sigma"] "halfstudentt" Mmedian ["nu"; "sigma"]) (* halfstudentt.py 134-135, 226-227 *)
  | Mmode => Some (W [A "nu"; A "sigma"] ["nu"; "sigma"] "halfstudentt" Mmode ["nu"; "sigma"]) (* halfstudentt.py 131-132, 221-222 *)
  | Mvar => Some (W [A "nu"; A "sigma"] ["nu"; "sigma"] "halfstudentt" Mvar ["nu"; "sigma"]) (* halfstudentt.py 137-138, 231-232 *)
  | Mstd => Some (W [A "nu"; A "sigma"] ["nu"; "sigma"] "halfstudentt" Mstd ["nu"; "sigma"]) (* halfstudentt.py 140-141, 236-237 *)
  | Mskewness => Some (W [A "nu"; A "sigma"] ["nu"; "sigma"] "halfstudentt" Mskewness ["nu"; "sigma"]) (* halfstudentt.py 143-144, 241-242 *)
  | Mkurtosis => Some (W [A "nu"; A "sigma"] ["nu"; "sigma"] "halfstudentt" Mkurtosis ["nu"; "sigma"]) (* halfstudentt.py 146-147, 246-247 *)
  | Mlmoment1 => Some (W [A "nu"; A "sigma"] ["nu"; "sigma"] "halfstudentt" Mlmoment1 ["nu"; "sigma"]) (* halfstudentt.py 149-150, 251-252 *)
  | Mlmoment2 => Some (W [A "nu"; A "sigma"] ["nu"; "sigma"] "halfstudentt" Mlmoment2 ["nu"; "sigma"]) (* halfstudentt.py 152-153, 256-257 *)
  | Mlmoment3 => Some (W [A "nu"; A "sigma"] ["nu"; "sigma"] "halfstudentt" Mlmoment3 ["nu"; "sigma"]) (* halfstudentt.py 155-156, 261-262 *)
  | Mlmoment4 => Some (W [A "nu"; A "sigma"] ["nu"; "sigma"] "halfstudentt" Mlmoment4 ["nu"; "sigma"]) (* halfstudentt.py 158-159, 266-267 *)
  | Mrvs => Some (W [A "nu"; A "sigma"] ["nu"; "sigma"] "halfstudentt" Mrvs ["nu"; "sigma"]) (* halfstudentt.py 161-163, 271-272 *)
  | _ => None
  end.

(** hypergeometric.py *)
Definition wrap_HyperGeometric (m : method) : option wrapper :=
  match m with
  | Mpdf => Some (W [X; A "N"; A "k"; A "n"] ["x"; "N"; "k"; "n"] "hypergeometric" Mpdf ["x"; "N"; "k"; "n"]) (* hypergeometric.py 71-72, 131-132 *)
  | Mcdf => Some (W [X; A "N"; A "k"; A "n"] ["x"; "N"; "k"; "n"] "hypergeometric" Mcdf ["x"; "N"; "k"; "n"]) (* hypergeometric.py 74-75, 136-137 *)
  | Mppf => Some (W [X; A "N"; A "k"; A "n"] ["q"; "N"; "k"; "n"] "hypergeometric" Mppf ["q"; "N"; "k"; "n"]) (* hypergeometric.py 77-78, 141-142 *)
  | Mlogpdf => Some (W [X; A "N"; A "k"; A "n"] ["x"; "N"; "k"; "n"] "hypergeometric" Mlogpdf ["x"; "N"; "k"; "n"]) (* hypergeometric.py 80-81, 146-147 *)
  | Mentropy => Some (W [A "N"; A "k"; A "n"] ["N"; "k"; "n"] "hypergeometric" Mentropy ["N"; "k"; "n"]) (* hypergeometric.py 83-84, 151-152 *)
  | Mmean => Some (W [A "N"; A "k"; A "n"] ["N"; "k"; "n"] "hypergeometric" Mmean ["N"; "k"; "n"]) (* hypergeometric.py 86-87, 156-157 *)
  | Mmedian => Some (W [A "N"; A "k"; A "n"] ["N"; "k"; "n"] "hypergeometric" Mmedian ["N"; "k"; "n"]) (* hypergeometric.py 89-90, 166-167 *)
  | Mmode => Some (W [A "N"; A "k"; A "n"] ["N"; "k"; "n"] "hypergeometric" Mmode ["N"; "k"; "n"]) (* hypergeometric.py 116-117, 161-162 *)
  | Mvar => Some (W [A "N"; A "k"; A "n"] ["N"; "k"; "n"] "hypergeometric" Mvar ["N"; "k"; "n"]) (* hypergeometric.py 92-93, 171-172 *)
  | Mstd => Some (W [A "N"; A "k"; A "n"] ["N"; "k"; "n"] "hypergeometric" Mstd ["N"; "k"; "n"]) (* hypergeometric.py 95-96, 176-177 *)
  | Mskewness => Some (W [A "N"; A "k"; A "n"] ["N"; "k"; "n"] "hypergeometric" Mskewness ["N"; "k"; "n"]) (* hypergeometric.py 98-99, 181-182 *)
  | Mkurtosis => Some (W [A "N"; A "k"; A "n"] ["N"; "k"; "n"] "hypergeometric" Mkurtosis ["N"; "k"; "n"]) (* hypergeometric.py 101-102, 186-187 *)
  | Mlmoment1 => Some (W [A "N"; A "k"; A "n"] ["N"; "k"; "n"] "hypergeometric" Mlmoment1 ["N"; "k"; "n"]) (* hypergeometric.py 104-105, 191-192 *)
  | Mlmoment2 => Some (W [A "N"; A "k"; A "n"] ["N"; "k"; "n"] "hypergeometric" Mlmoment2 ["N"; "k"; "n"]) (* hypergeometric.py 107-108, 196-197 *)
  | Mlmoment3 => Some (W [A "N"; A "k"; A "n"] ["N"; "k"; "n"] "hypergeometric" Mlmoment3 ["N"; "k"; "n"]) (* hypergeometric.py 110-111, 201-202 *)
  | Mlmoment4 => Some (W [A "N"; A "k"; A "n"] ["N"; "k"; "n"] "hypergeometric" Mlmoment4 ["N"; "k"; "n"]) (* hypergeometric.py 113-114, 206-207 *)
  | Mrvs => Some (W [A "N"; A "k"; A "n"] ["N"; "k"; "n"] "hypergeometric" Mrvs ["N"; "k"; "n"]) (* hypergeometric.py 119-121, 211-212 *)
  | _ => None
  end.

(** inversegamma.py *)
Definition wrap_InverseGamma (m : method) : option wrapper :=
  match m with
  | Mpdf => Some (W [X; A "alpha"; A "beta"] ["x"; "alpha"; "beta"] "inversegamma" Mpdf ["x"; "alpha"; "beta"]) (* inversegamma.py 107-108, 168-169 *)
  | Mcdf => Some (W [X; A "alpha"; A "beta"] ["x"; "alpha"; "beta"] "inversegamma" Mcdf ["x"; "alpha"; "beta"]) (* inversegamma.py 110-111, 173-174 *)
  | Mppf => Some (W [X; A "alpha"; A "beta"] ["q"; "alpha"; "beta"] "inversegamma" Mppf ["q"; "alpha"; "beta"]) (* inversegamma.py 113-114, 178-179 *)
  | Mlogpdf => Some (W [X; A "alpha"; A "beta"] ["x"; "alpha"; "beta"] "inversegamma" Mlogpdf ["x"; "alpha"; "beta"]) (* inversegamma.py 116-117, 183-184 *)
  | Mentropy => Some (W [A "alpha"; A "beta"] ["alpha"; "beta"] "inversegamma" Mentropy ["alpha"; "beta"]) (* inversegamma.py 119-120, 188-189 *)
  | Mmean => Some (W [A "alpha"; A "beta"] ["alpha"; "beta"] "inversegamma" Mmean ["alpha"; "beta"]) (* inversegamma.py 122-123, 193-194 *)
  | Mmedian => Some (W [A "alpha"; A "beta"] ["alpha"; "beta"] "inversegamma" Mmedian ["alpha"; "beta"]) (* inversegamma.py 128-129, 203-204 *)
  | Mmode => Some (W [A "alpha"; A "beta"] ["alpha"; "beta"] "inversegamma" Mmode ["alpha"; "beta"]) (* inversegamma.py 125-126, 198-199 *)
  | Mvar => Some (W [A "alpha"; A "beta"] ["alpha"; "beta"] "inversegamma" Mvar ["alpha"; "beta"]) (* inversegamma.py 131-132, 208-209 *)
  | Mstd => Some (W [A "alpha"; A "beta"] ["alpha"; "beta"] "inversegamma" Mstd ["alpha"; "beta"]) (* inversegamma.py 134-135, 213-214 *)
  | Mskewness => Some (W [A "alpha"; A "beta"] ["alpha"; "beta"] "inversegamma" Mskewness ["alpha"; "beta"]) (* inversegamma.py 137-138, 218-219 *)
  | Mkurtosis => Some (W [A "alpha"; A "beta"] ["alpha"; "beta"] "inversegamma" Mkurtosis ["alpha"; "beta"]) (* inversegamma.py 140-141, 223-224 *)
  | Mlmoment1 => Some (W [A "alpha"; A "beta"] ["alpha"; "beta"] "inversegamma" Mlmoment1 ["alpha"; "beta"]) (* inversegamma.py 143-144, 228-229 *)
  | Mlmoment2 => Some (W [A "alpha"; A "beta"] ["alpha"; "beta"] "inversegamma" Mlmoment2 ["alpha"; "beta"]) (* inversegamma.py 146-147, 233-234 *)
  | Mlmoment3 => Some (W [A "alpha"; A "beta"] ["alpha"; "beta"] "inversegamma" Mlmoment3 ["alpha"; "beta"]) (* inversegamma.py 149-150, 238-239 *)
  | Mlmoment4 => Some (W [A "alpha"; A "beta"] ["alpha"; "beta"] "inversegamma" Mlmoment4 ["alpha"; "beta"]) (* inversegamma.py 152-153, 243-244 *)
  | Mrvs => Some (W [A "alpha"; A "beta"] ["alpha"; "beta"] "inversegamma" Mrvs ["alpha"; "beta"]) (* inversegamma.py 155-157, 248-249 *)
  | _ => None
  end.

(** kumaraswamy.py *)
Definition wrap_Kumaraswamy (m : method) : option wrapper :=
  match m with
  | Mpdf => Some (W [X; A "a"; A "b"] ["x"; "a"; "b"] "kumaraswamy" Mpdf ["x"; "a"; "b"]) (* kumaraswamy.py 65-66, 125-126 *)
  | Mcdf => Some (W [X; A "a"; A "b"] ["x"; "a"; "b"] "kumaraswamy" Mcdf ["x"; "a"; "b"]) (* kumaraswamy.py 68-69, 130-131 *)
  | Mppf => Some (W [X; A "a"; A "b"] ["q"; "a"; "b"] "kumaraswamy" Mppf ["q"; "a"; "b"]) (* kumaraswamy.py 71-72, 135-136 *)
  | Mlogpdf => Some (W [X; A "a"; A "b"] ["x"; "a"; "b"] "kumaraswamy" Mlogpdf ["x"; "a"; "b"]) (* kumaraswamy.py 74-75, 140-141 *)
  | Mentropy => Some (W [A "a"; A "b"] ["a"; "b"] "kumaraswamy" Mentropy ["a"; "b"]) (* kumaraswamy.py 77-78, 145-146 *)
  | Mmean => Some (W [A "a"; A "b"] ["a"; "b"] "kumaraswamy" Mmean ["a"; "b"]) (* kumaraswamy.py 80-81, 150-151 *)
  | Mmedian => Some (W [A "a"; A "b"] ["a"; "b"] "kumaraswamy" Mmedian ["a"; "b"]) (* kumaraswamy.py 86-87, 160-161 *)
  | Mmode => Some (W [A "a"; A "b"] ["a"; "b"] "kumaraswamy" Mmode ["a"; "b"]) (* kumaraswamy.py 83-84, 155-156 *)
  | Mvar => Some (W [A "a"; A "b"] ["a"; "b"] "kumaraswamy" Mvar ["a"; "b"]) (* kumaraswamy.py 89-90, 165-166 *)
  | Mstd => Some (W [A "a"; A "b"] ["a"; "b"] "kumaraswamy" Mstd ["a"; "b"]) (* kumaraswamy.py 92-93, 170-171 *)
  | Mskewness => Some (W [A "a"; A "b"] ["a"; "b"] "kumaraswamy" Mskewness ["a"; "b"]) (* kumaraswamy.py 95-96, 175-176 *)
  | Mkurtosis => Some (W [A "a"; A "b"] ["a"; "b"] "kumaraswamy" Mkurtosis ["a"; "b"]) (* kumaraswamy.py 98-99, 180-181 *)
  | Mlmoment1 => Some (W [A "a"; A "b"] ["a"; "b"] "kumaraswamy" Mlmoment1 ["a"; "b"]) (* kumaraswamy.py 101-102, 185-186 *)
  | Mlmoment2 => Some (W [A "a"; A "b"] ["a"; "b"] "kumaraswamy" Mlmoment2 ["a"; "b"]) (* kumaraswamy.py 104-105, 190-191 *)
  | Mlmoment3 => Some (W [A "a"; A "b"] ["a"; "b"] "kumaraswamy" Mlmoment3 ["a"; "b"]) (* kumaraswamy.py 107-108, 195-196 *)
  | Mlmoment4 => Some (W [A "a"; A "b"] ["a"; "b"] "kumaraswamy" Mlmoment4 ["a"; "b"]) (* kumaraswamy.py 110-111, 200-201 *)
  | Mrvs => Some (W [A "a"; A "b"] ["a"; "b"] "kumaraswamy" Mrvs ["a"; "b"]) (* kumaraswamy.py 113-115, 205-206 *)
  | _ => None
  end.

(** laplace.py *)
Definition wrap_Laplace (m : method) : option wrapper :=
  match m with
  | Mpdf => Some (W [X; A "mu"; A "b"] ["x"; "mu"; "b"] "laplace" Mpdf ["x"; "mu"; "b"]) (* laplace.py 65-66, 127-128 *)
  | Mcdf => Some (W [X; A "mu"; A "b"] ["x"; "mu"; "b"] "laplace" Mcdf ["x"; "mu"; "b"]) (* laplace.py 68-69, 132-133 *)
  | Mppf => Some (W [X; A "mu"; A "b"] ["q"; "mu"; "b"] "laplace" Mppf ["q"; "mu"; "b"]) (* laplace.py 71-72, 137-138 *)
  | Mlogpdf => Some (W [X; A "mu"; A "b"] ["x"; "mu"; "b"] "laplace" Mlogpdf ["x"; "mu"; "b"]) (* laplace.py 74-75, 142-143 *)
  | Mentropy => Some (W [A "mu"; A "b"] ["mu"; "b"] "laplace" Mentropy ["mu"; "b"]) (* laplace.py 77-78, 147-148 *)
  | Mmean => Some (W [A "mu"; A "b"] ["mu"; "b"] "laplace" Mmean ["mu"; "b"]) (* laplace.py 83-84, 152-153 *)
  | Mmedian => Some (W [A "mu"; A "b"] ["mu"; "b"] "laplace" Mmedian ["mu"; "b"]) (* laplace.py 80-81, 162-163 *)
  | Mmode => Some (W [A "mu"; A "b"] ["mu"; "b"] "laplace" Mmode ["mu"; "b"]) (* laplace.py 86-87, 157-158 *)
  | Mvar => Some (W [A "mu"; A "b"] ["mu"; "b"] "laplace" Mvar ["mu"; "b"]) (* laplace.py 92-93, 167-168 *)
  | Mstd => Some (W [A "mu"; A "b"] ["mu"; "b"] "laplace" Mstd ["mu"; "b"]) (* laplace.py 89-90, 172-173 *)
  | Mskewness => Some (W [A "mu"; A "b"] ["mu"; "b"] "laplace" Mskewness ["mu"; "b"]) (* laplace.py 95-96, 177-178 *)
  | Mkurtosis => Some (W [A "mu"; A "b"] ["mu"; "b"] "laplace" Mkurtosis ["mu"; "b"]) (* laplace.py 98-99, 182-183 *)
  | Mlmoment1 => Some (W [A "mu"; A "b"] ["mu"; "b"] "laplace" Mlmoment1 ["mu"; "b"]) (* laplace.py 101-102, 187-188 *)
  | Mlmoment2 => Some (W [A "mu"; A "b"] ["mu"; "b"] "laplace" Mlmoment2 ["mu"; "b"]) (* laplace.py 104-105, 192-193 *)
  | Mlmoment3 => Some (W [A "mu"; A "b"] ["mu"; "b"] "laplace" Mlmoment3 ["mu"; "b"]) (* laplace.py 107-108, 197-198 *)
  | Mlmoment4 => Some (W [A "mu"; A "b"] ["mu"; "b"] "laplace" Mlmoment4 ["mu"; "b"]) (* laplace.py 110-111, 202-203 *)
  | Mrvs => Some (W [A "mu"; A "b"] ["mu"; "b"] "laplace" Mrvs ["mu"; "b"]) (* laplace.py 113-115, 207-208 *)
  | _ => None
  end.

(** logistic.py *)
Definition wrap_Logistic (m : method) : option wrapper :=
  match m with
  | Mpdf => Some (W [X; A "mu"; A "s"] ["x"; "mu"; "s"] "logistic" Mpdf ["x"; "mu"; "s"]) (* logistic.py 65-66, 126-127 *)
  | Mcdf => Some (W [X; A "mu"; A "s"] ["x"; "mu"; "s"] "logistic" Mcdf ["x"; "mu"; "s"]) (* logistic.py 68-69, 131-132 *)
  | Mppf => Some (W [X; A "mu"; A "s"] ["q"; "mu"; "s"] "logistic" Mppf ["q"; "mu"; "s"]) (* logistic.py 71-72, 136-137 *)
  | Mlogpdf => Some (W [X; A "mu"; A "s"] ["x"; "mu"; "s"] "logistic" Mlogpdf ["x"; "mu"; "s"]) (* logistic.py 74-75, 141-142 *)
  | Mentropy => Some (W [A "mu"; A "s"] ["mu"; "s"] "logistic" Mentropy ["mu"; "s"]) (* logistic.py 77-78, 146-147 *)
  | Mmean => Some (W [A "mu"; A "s"] ["mu"; "s"] "logistic" Mmean ["mu"; "s"]) (* logistic.py 80-81, 151-152 *)
  | Mmedian => Some (W [A "mu"; A "s"] ["mu"; "s"] "logistic" Mmedian ["mu"; "s"]) (* logistic.py 86-87, 161-162 *)
  | Mmode => Some (W [A "mu"; A "s"] ["mu"; "s"] "logistic" Mmode ["mu"; "s"]) (* logistic.py 83-84, 156-157 *)
  | Mvar => Some (W [A "mu"; A "s"] ["mu"; "s"] "logistic" Mvar ["mu"; "s"]) (* logistic.py 89-90, 166-167 *)
  | Mstd => Some (W [A "mu"; A "s"] ["mu"; "s"] "logistic" Mstd ["mu"; "s"]) (* logistic.py 92-93, 171-172 *)
  | Mskewness => Some (W [A "mu"; A "s"] ["mu"; "s"] "logistic" Mskewness ["mu"; "s"]) (* logistic.py 95-96, 176-177 *)
  | Mkurtosis => Some (W [A "mu"; A "s"] ["mu"; "s"] "logistic" Mkurtosis ["mu"; "s"]) (* logistic.py 98-99, 181-182 *)
  | Mlmoment1 => Some (W [A "mu"; A "s"] ["mu"; "s"] "logistic" Mlmoment1 ["mu"; "s"]) (* logistic.py 101-102, 186-187 *)
  | Mlmoment2 => Some (W [A "mu"; A "s"] ["mu"; "s"] "logistic" Mlmoment2 ["mu"; "s"]) (* logistic.py 104-105, 191-192 *)
  | Mlmoment3 => Some (W [A "mu"; A "s"] ["mu"; "s"] "logistic" Mlmoment3 ["mu"; "s"]) (* logistic.py 107-108, 196-197 *)
  | Mlmoment4 => Some (W [A "mu"; A "s"] ["mu"; "s"] "logistic" Mlmoment4 ["mu"; "s"]) (* logistic.py 110-111, 201-202 *)
  | Mrvs => Some (W [A "mu"; A "s"] ["mu"; "s"] "logistic" Mrvs ["mu"; "s"]) (* logistic.py 113-115, 206-207 *)
  | _ => None
  end.

(** logitnormal.py *)
Definition wrap_LogitNormal (m : method) : option wrapper :=
  match m with
  | Mpdf => Some (W [X; A "mu"; A "sigma"] ["x"; "mu"; "sigma"] "logitnormal" Mpdf ["x"; "mu"; "sigma"]) (* logitnormal.py 97-98, 160-161 *)
  | Mcdf => Some (W [X; A "mu"; A "sigma"] ["x"; "mu"; "sigma"] "logitnormal" Mcdf ["x"; "mu"; "sigma"]) (* logitnormal.py 100-101, 165-166 *)
  | Mppf => Some (W [X; A "mu"; A "sigma"] ["q"; "mu"; "sigma"] "logitnormal" Mppf ["q"; "mu"; "sigma"]) (* logitnormal.py 103-104, 170-171 *)
  | Mlogpdf => Some (W [X; A "mu"; A "sigma"] ["x"; "mu"; "sigma"] "logitnormal" Mlogpdf ["x"; "mu"; "sigma"]) (* logitnormal.py 106-107, 175-176 *)
  | Mentropy => Some (W [A "mu"; A "sigma"] ["mu"; "sigma"] "logitnormal" Mentropy ["mu"; "sigma"]) (* logitnormal.py 109-110, 180-181 *)
  | Mmean => Some (W [A "mu"; A "sigma"] ["mu"; "sigma"] "logitnormal" Mmean ["mu"; "sigma"]) (* logitnormal.py 112-113, 185-186 *)
  | Mmedian => Some (W [A "mu"; A "sigma"] ["mu"; "sigma"] "logitnormal" Mmedian ["mu"; "sigma"]) (* logitnormal.py 115-116, 195-196 *)
  | Mmode => Some (W [A "mu"; A "sigma"] ["mu"; "sigma"] "logitnormal" Mmode ["mu"; "sigma"]) (* logitnormal.py 142-143, 190-191 *)
  | Mvar => Some (W [A "mu"; A "sigma"] ["mu"; "sigma"] "logitnormal" Mvar ["mu"; "sigma"]) (* logitnormal.py 118-119, 200-201 *)
  | Mstd => Some (W [A "mu"; A "sigma"] ["mu"; "sigma"] "logitnormal" Mstd ["mu"; "sigma"]) (* logitnormal.py 121-122, 205-206 *)
  | Mskewness => Some (W [A "mu"; A "sigma"] ["mu"; "sigma"] "logitnormal" Mskewness ["mu"; "sigma"]) (* logitnormal.py 124-125, 210-211 *)
  | Mkurtosis => Some (W [A "mu"; A "sigma"] ["mu"; "sigma"] "logitnormal" Mkurtosis ["mu"; "sigma"]) (* logitnormal.py 127-128, 215-216 *)
  | Mlmoment1 => Some (W [A "mu"; A "sigma"] ["mu"; "sigma"] "logitnormal" Mlmoment1 ["mu"; "sigma"]) (* logitnormal.py 130-131, 220-221 *)
  | Mlmoment2 => Some (W [A "mu"; A "sigma"] ["mu"; "sigma"] "logitnormal" Mlmoment2 ["mu"; "sigma"]) (* logitnormal.py 133-134, 225-226 *)
  | Mlmoment3 => Some (W [A "mu"; A "sigma"] ["mu"; "sigma"] "logitnormal" Mlmoment3 ["mu"; "sigma"]) (* logitnormal.py 136-137, 230-231 *)
  | Mlmoment4 => Some (W [A "mu"; A "sigma"] ["mu"; "sigma"] "logitnormal" Mlmoment4 ["mu"; "sigma"]) (* logitnormal.py 139-140, 235-236 *)
  | Mrvs => Some (W [A "mu"; A "sigma"] ["mu"; "sigma"] "logitnormal" Mrvs ["mu"; "sigma"]) (* logitnormal.py 145-147, 240-241 *)
  | _ => None
  end.

(** loglogistic.py *)
Definition wrap_LogLogistic (m : method) : option wrapper :=
  match m with
  | Mpdf => Some (W [X; A "alpha"; A "beta"] ["x"; "alpha"; "beta"] "loglogistic" Mpdf ["x"; "alpha"; "beta"]) (* loglogistic.py 69-70, 129-130 *)
  | Mcdf => Some (W [X; A "alpha"; A "beta"] ["x"; "alpha"; "beta"] "loglogistic" Mcdf ["x"; "alpha"; "beta"]) (* loglogistic.py 72-73, 134-135 *)
  | Mppf => Some (W [X; A "alpha"; A "beta"] ["q"; "alpha"; "beta"] "loglogistic" Mppf ["q"; "alpha"; "beta"]) (* loglogistic.py 75-76, 139-140 *)
  | Mlogpdf => Some (W [X; A "alpha"; A "beta"] ["x"; "alpha"; "beta"] "loglogistic" Mlogpdf ["x"; "alpha"; "beta"]) (* loglogistic.py 78-79, 144-145 *)
  | Mentropy => Some (W [A "alpha"; A "beta"] ["alpha"; "beta"] "loglogistic" Mentropy ["alpha"; "beta"]) (* loglogistic.py 81-82, 149-150 *)
  | Mmean => Some (W [A "alpha"; A "beta"] ["alpha"; "beta"] "loglogistic" Mmean ["alpha"; "beta"]) (* loglogistic.py 84-85, 154-155 *)
  | Mmedian => Some (W [A "alpha"; A "beta"] ["alpha"; "beta"] "loglogistic" Mmedian ["alpha"; "beta"]) (* loglogistic.py 90-91, 164-165 *)
  | Mmode => Some (W [A "alpha"; A "beta"] ["alpha"; "beta"] "loglogistic" Mmode ["alpha"; "beta"]) (* loglogistic.py 87-88, 159-160 *)
  | Mvar => Some (W [A "alpha"; A "beta"] ["alpha"; "beta"] "loglogistic" Mvar ["alpha"; "beta"]) (* loglogistic.py 93-94, 169-170 *)
  | Mstd => Some (W [A "alpha"; A "beta"] ["alpha"; "beta"] "loglogistic" Mstd ["alpha"; "beta"]) (* loglogistic.py 96-97, 174-175 *)
  | Mskewness => Some (W [A "alpha"; A "beta"] ["alpha"; "beta"] "loglogistic" Mskewness ["alpha"; "beta"]) (* loglogistic.py 99-100, 179-180 *)
  | Mkurtosis => Some (W [A "alpha"; A "beta"] ["alpha"; "beta"] "loglogistic" Mkurtosis ["alpha"; "beta"]) (* loglogistic.py 102-103, 184-185 *)
  | Mlmoment1 => Some (W [A "alpha"; A "beta"] ["alpha"; "beta"] "loglogistic" Mlmoment1 ["alpha"; "beta"]) (* loglogistic.py 105-106, 189-190 *)
  | Mlmoment2 => Some (W [A "alpha"; A "beta"] ["alpha"; "beta"] "loglogistic" Mlmoment2 ["alpha"; "beta"]) (* loglogistic.py 108-109, 194-195 *)
  | Mlmoment3 => Some (W [A "alpha"; A "beta"] ["alpha"; "beta"] "loglogistic" Mlmoment3 ["alpha"; "beta"]) (* loglogistic.py 111-112, 199-200 *)
  | Mlmoment4 => Some (W [A "alpha"; A "beta"] ["alpha"; "beta"] "loglogistic" Mlmoment4 ["alpha"; "beta"]) (* loglogistic.py 114-115, 204-205 *)
  | Mrvs => Some (W [A "alpha"; A "beta"] ["alpha"; "beta"] "loglogistic" Mrvs ["alpha"; "beta"]) (* loglogistic.py 117-119, 209-210 *)
  | _ => None
  end.

(** lognormal.py *)
Definition wrap_LogNormal (m : method) : option wrapper :=
  match m with
  | Mpdf => Some (W [X; A "mu"; A "sigma"] ["x"; "mu"; "sigma"] "lognormal" Mpdf ["x"; "mu"; "sigma"]) (* lognormal.py 73-74, 136-137 *)
  | Mcdf => Some (W [X; A "mu"; A "sigma"] ["x"; "mu"; "sigma"] "lognormal" Mcdf ["x"; "mu"; "sigma"]) (* lognormal.py 76-77, 141-142 *)
  | Mppf => Some (W [X; A "mu"; A "sigma"] ["q"; "mu"; "sigma"] "lognormal" Mppf ["q"; "mu"; "sigma"]) (* lognormal.py 79-80, 146-147 *)
  | Mlogpdf => Some (W [X; A "mu"; A "sigma"] ["x"; "mu"; "sigma"] "lognormal" Mlogpdf ["x"; "mu"; "sigma"]) (* lognormal.py 82-83, 151-152 *)
  | Mentropy => Some (W [A "mu"; A "sigma"] ["mu"; "sigma"] "lognormal" Mentropy ["mu"; "sigma"]) (* lognormal.py 85-86, 156-157 *)
  | Mmean => Some (W [A "mu"; A "sigma"] ["mu"; "sigma"] "lognormal" Mmean ["mu"; "sigma"]) (* lognormal.py 88-89, 161-162 *)
  | Mmedian => Some (W [A "mu"; A "sigma"] ["mu"; "sigma"] "lognormal" Mmedian ["mu"; "sigma"]) (* lognormal.py 94-95, 171-172 *)
  | Mmode => Some (W [A "mu"; A "sigma"] ["mu"; "sigma"] "lognormal" Mmode ["mu"; "sigma"]) (* lognormal.py 91-92, 166-167 *)
  | Mvar => Some (W [A "mu"; A "sigma"] ["mu"; "sigma"] "lognormal" Mvar ["mu"; "sigma"]) (* lognormal.py 97-98, 176-177 *)
  | Mstd => Some (W [A "mu"; A "sigma"] ["mu"; "sigma"] "lognormal" Mstd ["mu"; "sigma"]) (* lognormal.py 100-101, 181-182 *)
  | Mskewness => Some (W [A "mu"; A "sigma"] ["mu"; "sigma"] "lognormal" Mskewness ["mu"; "sigma"]) (* lognormal.py 103-104, 186-187 *)
  | Mkurtosis => Some (W [A "mu"; A "sigma"] ["mu"; "sigma"] "lognormal" Mkurtosis ["mu"; "sigma"]) (* lognormal.py 106-107, 191-192 *)
  | Mlmoment1 => Some (W [A "mu"; A "sigma"] ["mu"; "sigma"] "lognormal" Mlmoment1 ["mu"; "sigma"]) (* lognormal.py 109-110, 196-197 *)
  | Mlmoment2 => Some (W [A "mu"; A "sigma"] ["mu"; "sigma"] "lognormal" Mlmoment2 ["mu"; "sigma"]) (* lognormal.py 112-113, 201-202 *)
  | Mlmoment3 => Some (W [A "mu"; A "sigma"] ["mu"; "sigma"] "lognormal" Mlmoment3 ["mu"; "sigma"]) (* lognormal.py 115-116, 206-207 *)
  | Mlmoment4 => Some (W [A "mu"; A "sigma"] ["mu"; "sigma"] "lognormal" Mlmoment4 ["mu"; "sigma"]) (* lognormal.py 118-119, 211-212 *)
  | Mrvs => Some (W [A "mu"; A "sigma"] ["mu"; "sigma"] "lognormal" Mrvs ["mu"; "sigma"]) (* lognormal.py 121-123, 216-217 *)
  | _ => None
  end.

(** moyal.py *)
Definition wrap_Moyal (m : method) : option wrapper :=
  match m with
  | Mpdf => Some (W [X; A "mu"; A "sigma"] ["x"; "mu"; "sigma"] "moyal" Mpdf ["x"; "mu"; "sigma"]) (* moyal.py 72-73, 134-135 *)
  | Mcdf => Some (W [X; A "mu"; A "sigma"] ["x"; "mu"; "sigma"] "moyal" Mcdf ["x"; "mu"; "sigma"]) (* moyal.py 75-76, 139-140 *)
  | Mppf => Some (W [X; A "mu"; A "sigma"] ["q"; "mu"; "sigma"] "moyal" Mppf ["q"; "mu"; "sigma"]) (* moyal.py 78-79, 144-145 *)
  | Mlogpdf => Some (W [X; A "mu"; A "sigma"] ["x"; "mu"; "sigma"] "moyal" Mlogpdf ["x"; "mu"; "sigma"]) (* moyal.py 81-82, 149-150 *)
  | Mentropy => Some (W [A "mu"; A "sigma"] ["mu"; "sigma"] "moyal" Mentropy ["mu"; "sigma"]) (* moyal.py 84-85, 154-155 *)
  | Mmean => Some (W [A "mu"; A "sigma"] ["mu"; "sigma"] "moyal" Mmean ["mu"; "sigma"]) (* moyal.py 87-88, 159-160 *)
  | Mmedian => Some (W [A "mu"; A "sigma"] ["mu"; "sigma"] "moyal" Mmedian ["mu"; "sigma"]) (* moyal.py 93-94, 169-170 *)
  | Mmode => Some (W [A "mu"; A "sigma"] ["mu"; "sigma"] "moyal" Mmode ["mu"; "sigma"]) (* moyal.py 90-91, 164-165 *)
  | Mvar => Some (W [A "mu"; A "sigma"] ["mu"; "sigma"] "moyal" Mvar ["mu"; "sigma"]) (* moyal.py 96-97, 174-175 *)
  | Mstd => Some (W [A "mu"; A "sigma"] ["mu"; "sigma"] "moyal" Mstd ["mu"; "sigma"]) (* moyal.py 99-100, 179-180 *)
  | Mskewness => Some (W [A "mu"; A "sigma"] ["mu"; "sigma"] "moyal" Mskewness ["mu"; "sigma"]) (* moyal.py 102-103, 184-185 *)
  | Mkurtosis => Some (W [A "mu"; A "sigma"] ["mu"; "sigma"] "moyal" Mkurtosis ["mu"; "sigma"]) (* moyal.py 105-106, 189-190 *)
  | Mlmoment1 => Some (W [A "mu"; A "sigma"] ["mu"; "sigma"] "moyal" Mlmoment1 ["mu"; "sigma"]) (* moyal.py 108-109, 194-195 *)
  | Mlmoment2 => Some (W [A "mu"; A "sigma"] ["mu"; "sigma"] "moyal" Mlmoment2 ["mu"; "sigma"]) (* moyal.py 111-112, 199-200 *)
  | Mlmoment3 => Some (W [A "mu"; A "sigma"] ["mu"; "sigma"] "moyal" Mlmoment3 ["mu"; "sigma"]) (* moyal.py 114-115, 204-205 *)
  | Mlmoment4 => Some (W [A "mu"; A "sigma"] ["mu"; "sigma"] "moyal" Mlmoment4 ["mu"; "sigma"]) (* moyal.py 117-118, 209-210 *)
  | Mrvs => Some (W [A "mu"; A "sigma"] ["mu"; "sigma"] "moyal" Mrvs ["mu"; "sigma"]) (* moyal.py 120-122, 214-215 *)
  | _ => None
  end.

(** negativebinomial.py *)
Definition wrap_NegativeBinomial (m : method) : option wrapper :=
  match m with
  | Mpdf => Some (W [X; A "n"; A "p"] ["x"; "n"; "p"] "negativebinomial" Mpdf ["x"; "n"; "p"]) (* negativebinomial.py 121-122, 181-182 *)
  | Mcdf => Some (W [X; A "n"; A "p"] ["x"; "n"; "p"] "negativebinomial" Mcdf ["x"; "n"; "p"]) (* negativebinomial.py 124-125, 186-187 *)
  | Mppf => Some (W [X; A "n"; A "p"] ["q"; "n"; "p"] "negativebinomial" Mppf ["q"; "n"; "p"]) (* negativebinomial.py 127-128, 191-192 *)
  | Mlogpdf => Some (W [X; A "n"; A "p"] ["x"; "n"; "p"] "negativebinomial" Mlogpdf ["x"; "n"; "p"]) (* negativebinomial.py 130-131, 196-197 *)
  | Mentropy => Some (W [A "n"; A "p"] ["n"; "p"] "negativebinomial" Mentropy ["n"; "p"]) (* negativebinomial.py 133-134, 201-202 *)
  | Mmean => Some (W [A "n"; A "p"] ["n"; "p"] "negativebinomial" Mmean ["n"; "p"]) (* negativebinomial.py 136-137, 206-207 *)
  | Mmedian => Some (W [A "n"; A "p"] ["n"; "p"] "negativebinomial" Mmedian ["n"; "p"]) (* negativebinomial.py 142-143, 216-217 *)
  | Mmode => Some (W [A "n"; A "p"] ["n"; "p"] "negativebinomial" Mmode ["n"; "p"]) (* negativebinomial.py 139-140, 211-212 *)
  | Mvar => Some (W [A "n"; A "p"] ["n"; "p"] "negativebinomial" Mvar ["n"; "p"]) (* negativebinomial.py 145-146, 221-222 *)
  | Mstd => Some (W [A "n"; A "p"] ["n"; "p"] "negativebinomial" Mstd ["n"; "p"]) (* negativebinomial.py 148-149, 226-227 *)
  | Mskewness => Some (W [A "n"; A "p"] ["n"; "p"] "negativebinomial" Mskewness ["n"; "p"]) (* negativebinomial.py 151-152, 231-232 *)
  | Mkurtosis => Some (W [A "n"; A "p"] ["n"; "p"] "negativebinomial" Mkurtosis ["n"; "p"]) (* negativebinomial.py 154-155, 236-237 *)
  | Mlmoment1 => Some (W [A "n"; A "p"] ["n"; "p"] "negativebinomial" Mlmoment1 ["n"; "p"]) (* negativebinomial.py 157-158, 241-242 *)
  | Mlmoment2 => Some (W [A "n"; A "p"] ["n"; "p"] "negativebinomial" Mlmoment2 ["n"; "p"]) (* negativebinomial.py 160-161, 246-247 *)
  | Mlmoment3 => Some (W [A "n"; A "p"] ["n"; "p"] "negativebinomial" Mlmoment3 ["n"; "p"]) (* negativebinomial.py 163-164, 251-252 *)
  | Mlmoment4 => Some (W [A "n"; A "p"] ["n"; "p"] "negativebinomial" Mlmoment4 ["n"; "p"]) (* negativebinomial.py 166-167, 256-257 *)
  | Mrvs => Some (W [A "n"; A "p"] ["n"; "p"] "negativebinomial" Mrvs ["n"; "p"]) (* negativebinomial.py 169-171, 261-262 *)
  | _ => None
  end.

(** normal.py *)
Definition wrap_Normal (m : method) : option wrapper :=
  match m with
  | Mpdf => Some (W [X; A "mu"; A "sigma"] ["x"; "mu"; "sigma"] "normal" Mpdf ["x"; "mu"; "sigma"]) (* normal.py 109-110, 178-179 *)
  | Mcdf => Some (W [X; A "mu"; A "sigma"] ["x"; "mu"; "sigma"] "normal" Mcdf ["x"; "mu"; "sigma"]) (* normal.py 112-113, 183-184 *)
  | Mppf => Some (W [X; A "mu"; A "sigma"] ["q"; "mu"; "sigma"] "normal" Mppf ["q"; "mu"; "sigma"]) (* normal.py 115-116, 188-189 *)
  | Mlogpdf => Some (W [X; A "mu"; A "sigma"] ["x"; "mu"; "sigma"] "normal" Mlogpdf ["x"; "mu"; "sigma"]) (* normal.py 124-125, 203-204 *)
  | Msf => Some (W [X; A "mu"; A "sigma"] ["x"; "mu"; "sigma"] "normal" Msf ["x"; "mu"; "sigma"]) (* normal.py 118-119, 193-194 *)
  | Misf => Some (W [X; A "mu"; A "sigma"] ["q"; "mu"; "sigma"] "normal" Misf ["q"; "mu"; "sigma"]) (* normal.py 121-122, 198-199 *)
  | Mlogcdf => Some (W [X; A "mu"; A "sigma"] ["x"; "mu"; "sigma"] "normal" Mlogcdf ["x"; "mu"; "sigma"]) (* normal.py 127-128, 208-209 *)
  | Mlogsf => Some (W [X; A "mu"; A "sigma"] ["x"; "mu"; "sigma"] "normal" Mlogsf ["x"; "mu"; "sigma"]) (* normal.py 130-131, 213-214 *)
  | Mlogisf => Some (W [X; A "mu"; A "sigma"] ["q"; "mu"; "sigma"] "normal" Mlogisf ["q"; "mu"; "sigma"]) (* normal.py 133-134, 218-219 *)
  | Mentropy => Some (W [A "mu"; A "sigma"] ["mu"; "sigma"] "normal" Mentropy ["mu"; "sigma"]) (* normal.py 136-137, 223-224 *)
  | Mmean => Some (W [A "mu"; A "sigma"] ["mu"; "sigma"] "normal" Mmean ["mu"; "sigma"]) (* normal.py 139-140, 228-229 *)
  | Mmedian => Some (W [A "mu"; A "sigma"] ["mu"; "sigma"] "normal" Mmedian ["mu"; "sigma"]) (* normal.py 145-146, 238-239 *)
  | Mmode => Some (W [A "mu"; A "sigma"] ["mu"; "sigma"] "normal" Mmode ["mu"; "sigma"]) (* normal.py 142-143, 233-234 *)
  | Mvar => Some (W [A "mu"; A "sigma"] ["mu"; "sigma"] "normal" Mvar ["mu"; "sigma"]) (* normal.py 148-149, 243-244 *)
  | Mstd => Some (W [A "mu"; A "sigma"] ["mu"; "sigma"] "normal" Mstd ["mu"; "sigma"]) (* normal.py 151-152, 248-249 *)
  | Mskewness => Some (W [A "mu"; A "sigma"] ["mu"; "sigma"] "normal" Mskewness ["mu"; "sigma"]) (* normal.py 154-155, 253-254 *)
  | Mkurtosis => Some (W [A "mu"; A "sigma"] ["mu"; "sigma"] "normal" Mkurtosis ["mu"; "sigma"]) (* normal.py 157-158, 258-259 *)
  | Mlmoment1 => Some (W [A "mu"; A "sigma"] ["mu"; "sigma"] "normal" Mlmoment1 ["mu"; "sigma"]) (* normal.py 160-161, 263-264 *)
  | Mlmoment2 => Some (W [A "mu"; A "sigma"] ["mu"; "sigma"] "normal" Mlmoment2 ["mu"; "sigma"]) (* normal.py 163-164, 268-269 *)
  | Mlmoment3 => Some (W [A "mu"; A "sigma"] ["mu"; "sigma"] "normal" Mlmoment3 ["mu"; "sigma"]) (* normal.py 166-167, 273-274 *)
  | Mlmoment4 => Some (W [A "mu"; A "sigma"] ["mu"; "sigma"] "normal" Mlmoment4 ["mu"; "sigma"]) (* normal.py 169-170, 278-279 *)
  | Mrvs => Some (W [A "mu"; A "sigma"] ["mu"; "sigma"] "normal" Mrvs ["mu"; "sigma"]) (* normal.py 172-174, 283-284 *)
  end.

(** pareto.py *)
Definition wrap_Pareto (m : method) : option wrapper :=
  match m with
  | Mpdf => Some (W [X; A "alpha"; A "m"] ["x"; "alpha"; "m"] "pareto" Mpdf ["x"; "alpha"; "m"]) (* pareto.py 65-66, 127-128 *)
  | Mcdf => Some (W [X; A "alpha"; A "m"] ["x"; "alpha"; "m"] "pareto" Mcdf ["x"; "alpha"; "m"]) (* pareto.py 68-69, 132-133 *)
  | Mppf => Some (W [X; A "alpha"; A "m"] ["q"; "alpha"; "m"] "pareto" Mppf ["q"; "alpha"; "m"]) (* pareto.py 71-72, 137-138 *)
  | Mlogpdf => Some (W [X; A "alpha"; A "m"] ["x"; "alpha"; "m"] "pareto" Mlogpdf ["x"; "alpha"; "m"]) (* pareto.py 74-75, 142-143 *)
  | Mentropy => Some (W [A "alpha"; A "m"] ["alpha"; "m"] "pareto" Mentropy ["alpha"; "m"]) (* pareto.py 77-78, 147-148 *)
  | Mmean => Some (W [A "alpha"; A "m"] ["alpha"; "m"] "pareto" Mmean ["alpha"; "m"]) (* pareto.py 80-81, 152-153 *)
  | Mmedian => Some (W [A "alpha"; A "m"] ["alpha"; "m"] "pareto" Mmedian ["alpha"; "m"]) (* pareto.py 86-87, 162-163 *)
  | Mmode => Some (W [A "alpha"; A "m"] ["alpha"; "m"] "pareto" Mmode ["alpha"; "m"]) (* pareto.py 83-84, 157-158 *)
  | Mvar => Some (W [A "alpha"; A "m"] ["alpha"; "m"] "pareto" Mvar ["alpha"; "m"]) (* pareto.py 89-90, 167-168 *)
  | Mstd => Some (W [A "alpha"; A "m"] ["alpha"; "m"] "pareto" Mstd ["alpha"; "m"]) (* pareto.py 92-93, 172-173 *)
  | Mskewness => Some (W [A "alpha"; A "m"] ["alpha"; "m"] "pareto" Mskewness ["alpha"; "m"]) (* pareto.py 95-96, 177-178 *)
  | Mkurtosis => Some (W [A "alpha"; A "m"] ["alpha"; "m"] "pareto" Mkurtosis ["alpha"; "m"]) (* pareto.py 98-99, 182-183 *)
  | Mlmoment1 => Some (W [A "alpha"; A "m"] ["alpha"; "m"] "pareto" Mlmoment1 ["alpha"; "m"]) (* pareto.py 101-102, 187-188 *)
  | Mlmoment2 => Some (W [A "alpha"; A "m"] ["alpha"; "m"] "pareto" Mlmoment2 ["alpha"; "m"]) (* pareto.py 104-105, 192-193 *)
  | Mlmoment3 => Some (W [A "alpha"; A "m"] ["alpha"; "m"] "pareto" Mlmoment3 ["alpha"; "m"]) (* pareto.py 107-108, 197-198 *)
  | Mlmoment4 => Some (W [A "alpha"; A "m"] ["alpha"; "m"] "pareto" Mlmoment4 ["alpha"; "m"]) (* pareto.py 110-111, 202-203 *)
  | Mrvs => Some (W [A "alpha"; A "m"] ["alpha"; "m"] "pareto" Mrvs ["alpha"; "m"]) (* pareto.py 113-115, 207-208 *)
  | _ => None
  end.

(** poisson.py *)
Definition wrap_Poisson (m : method) : option wrapper :=
  match m with
  | Mpdf => Some (W [X; A "mu"] ["x"; "mu"] "poisson" Mpdf ["x"; "mu"]) (* poisson.py 63-64, 123-124 *)
  | Mcdf => Some (W [X; A "mu"] ["x"; "mu"] "poisson" Mcdf ["x"; "mu"]) (* poisson.py 66-67, 128-129 *)
  | Mppf => Some (W [X; A "mu"] ["q"; "mu"] "poisson" Mppf ["q"; "mu"]) (* poisson.py 69-70, 133-134 *)
  | Mlogpdf => Some (W [X; A "mu"] ["x"; "mu"] "poisson" Mlogpdf ["x"; "mu"]) (* poisson.py 72-73, 138-139 *)
  | Mentropy => Some (W [A "mu"] ["mu"] "poisson" Mentropy ["mu"]) (* poisson.py 75-76, 143-144 *)
  | Mmean => Some (W [A "mu"] ["mu"] "poisson" Mmean ["mu"]) (* poisson.py 78-79, 148-149 *)
  | Mmedian => Some (W [A "mu"] ["mu"] "poisson" Mmedian ["mu"]) (* poisson.py 84-85, 158-159 *)
  | Mmode => Some (W [A "mu"] ["mu"] "poisson" Mmode ["mu"]) (* poisson.py 81-82, 153-154 *)
  | Mvar => Some (W [A "mu"] ["mu"] "poisson" Mvar ["mu"]) (* poisson.py 87-88, 163-164 *)
  | Mstd => Some (W [A "mu"] ["mu"] "poisson" Mstd ["mu"]) (* poisson.py 90-91, 168-169 *)
  | Mskewness => Some (W [A "mu"] ["mu"] "poisson" Mskewness ["mu"]) (* poisson.py 93-94, 173-174 *)
  | Mkurtosis => Some (W [A "mu"] ["mu"] "poisson" Mkurtosis ["mu"]) (* poisson.py 96-97, 178-179 *)
  | Mlmoment1 => Some (W [A "mu"] ["mu"] "poisson" Mlmoment1 ["mu"]) (* poisson.py 99-100, 183-184 *)
  | Mlmoment2 => Some (W [A "mu"] ["mu"] "poisson" Mlmoment2 ["mu"]) (* poisson.py 102-103, 188-189 *)
  | Mlmoment3 => Some (W [A "mu"] ["mu"] "poisson" Mlmoment3 ["mu"]) (* poisson.py 105-106, 193-194 *)
  | Mlmoment4 => Some (W [A "mu"] ["mu"] "poisson" Mlmoment4 ["mu"]) (* poisson.py 108-109, 198-199 *)
  | Mrvs => Some (W [A "mu"] ["mu"] "poisson" Mrvs ["mu"]) (* poisson.py 111-113, 203-204 *)
  | _ => None
  end.

(** rice.py *)
Definition wrap_Rice (m : method) : option wrapper :=
  match m with
  | Mpdf => Some (W [X; A "nu"; A "sigma"] ["x"; "nu"; "sigma"] "rice" Mpdf ["x"; "nu"; "sigma"]) (* rice.py 106-107, 164-165 *)
  | Mcdf => Some (W [X; A "nu"; A "sigma"] ["x"; "nu"; "sigma"] "rice" Mcdf ["x"; "nu"; "sigma"]) (* rice.py 109-110, 169-170 *)
  | Mppf => Some (W [X; A "nu"; A "sigma"] ["q"; "nu"; "sigma"] "rice" Mppf ["q"; "nu"; "sigma"]) (* rice.py 112-113, 174-175 *)
  | Mlogpdf => Some (W [X; A "nu"; A "sigma"] ["x"; "nu"; "sigma"] "rice" Mlogpdf ["x"; "nu"; "sigma"]) (* rice.py 115-116, 179-180 *)
  | Mentropy => Some (W [A "nu"; A "sigma"] ["nu"; "sigma"] "rice" Mentropy ["nu"; "sigma"]) (* rice.py 118-119, 184-185 *)
  | Mmean => Some (W [A "nu"; A "sigma"] ["nu"; "sigma"] "rice" Mmean ["nu"; "sigma"]) (* rice.py 121-122, 189-190 *)
  | Mmedian => Some (W [A "nu"; A "sigma"] ["nu"; "sigma"] "rice" Mmedian ["nu"; "sigma"]) (* rice.py 124-125, 199-200 *)
  | Mvar => Some (W [A "nu"; A "sigma"] ["nu"; "sigma"] "rice" Mvar ["nu"; "sigma"]) (* rice.py 127-128, 204-205 *)
  | Mstd => Some (W [A "nu"; A "sigma"] ["nu"; "sigma"] "rice" Mstd ["nu"; "sigma"]) (* rice.py 130-131, 209-210 *)
  | Mskewness => Some (W [A "nu"; A "sigma"] ["nu"; "sigma"] "rice" Mskewness ["nu"; "sigma"]) (* rice.py 133-134, 214-215 *)
  | Mkurtosis => Some (W [A "nu"; A "sigma"] ["nu"; "sigma"] "rice" Mkurtosis ["nu"; "sigma"]) (* rice.py 136-137, 219-220 *)
  | Mlmoment1 => Some (W [A "nu"; A "sigma"] ["nu"; "sigma"] "rice" Mlmoment1 ["nu"; "sigma"]) (* rice.py 139-140, 224-225 *)
  | Mlmoment2 => Some (W [A "nu"; A "sigma"] ["nu"; "sigma"] "rice" Mlmoment2 ["nu"; "sigma"]) (* rice.py 142-143, 229-230 *)
  | Mlmoment3 => Some (W [A "nu"; A "sigma"] ["nu"; "sigma"] "rice" Mlmoment3 ["nu"; "sigma"]) (* rice.py 145-146, 234-235 *)
  | Mlmoment4 => Some (W [A "nu"; A "sigma"] ["nu"; "sigma"] "rice" Mlmoment4 ["nu"; "sigma"]) (* rice.py 148-149, 239-240 *)
  | Mrvs => Some (W [A "nu"; A "sigma"] ["nu"; "sigma"] "rice" Mrvs ["nu"; "sigma"]) (* rice.py 151-153, 244-245 *)
  | _ => None
  end.

(** skew_studentt.py *)
Definition wrap_SkewStudentT (m : method) : option wrapper :=
  match m with
  | Mpdf => Some (W [X; A "a"; A "b"; A "mu"; A "sigma"] ["x"; "a"; "b"; "mu"; "sigma"] "skew_studentt" Mpdf ["x"; "a"; "b"; "mu"; "sigma"]) (* skew_studentt.py 107-108, 164-165 *)
  | Mcdf => Some (W [X; A "a"; A "b"; A "mu"; A "sigma"] ["x"; "a"; "b"; "mu"; "sigma"] "skew_studentt" Mcdf ["x"; "a"; "b"; "mu"; "sigma"]) (* skew_studentt.py 110-111, 169-170 *)
  | Mppf => Some (W [X; A "a"; A "b"; A "mu"; A "sigma"] ["q"; "a"; "b"; "mu"; "sigma"] "skew_studentt" Mppf ["q"; "a"; "b"; "mu"; "sigma"]) (* skew_studentt.py 113-114, 174-175 *)
  | Mlogpdf => Some (W [X; A "a"; A "b"; A "mu"; A "sigma"] ["x"; "a"; "b"; "mu"; "sigma"] "skew_studentt" Mlogpdf ["x"; "a"; "b"; "mu"; "sigma"]) (* skew_studentt.py 116-117, 179-180 *)
  | Mentropy => Some (W [A "a"; A "b"; A "mu"; A "sigma"] ["a"; "b"; "mu"; "sigma"] "skew_studentt" Mentropy ["a"; "b"; "mu"; "sigma"]) (* skew_studentt.py 119-120, 184-185 *)
  | Mmean => Some (W [A "a"; A "b"; A "mu"; A "sigma"] ["a"; "b"; "mu"; "sigma"] "skew_studentt" Mmean ["a"; "b"; "mu"; "sigma"]) (* skew_studentt.py 122-123, 189-190 *)
  | Mmedian => Some (W [A "a"; A "b"; A "mu"; A "sigma"] ["a"; "b"; "mu"; "sigma"] "skew_studentt" Mmedian ["a"; "b"; "mu"; "sigma"]) (* skew_studentt.py 125-126, 199-200 *)
  | Mvar => Some (W [A "a"; A "b"; A "mu"; A "sigma"] ["a"; "b"; "mu"; "sigma"] "skew_studentt" Mvar ["a"; "b"; "mu"; "sigma"]) (* skew_studentt.py 128-129, 204-205 *)
  | Mstd => Some (W [A "a"; A "b"; A "mu"; A "sigma"] ["a"; "b"; "mu"; "sigma"] "skew_studentt" Mstd ["a"; "b"; "mu"; "sigma"]) (* skew_studentt.py 131-132, 209-210 *)
  | Mskewness => Some (W [A "a"; A "b"; A "mu"; A "sigma"] ["a"; "b"; "mu"; "sigma"] "skew_studentt" Mskewness ["a"; "b"; "mu"; "sigma"]) (* skew_studentt.py 134-135, 214-215 *)
  | Mkurtosis => Some (W [A "a"; A "b"; A "mu"; A "sigma"] ["a"; "b"; "mu"; "sigma"] "skew_studentt" Mkurtosis ["a"; "b"; "mu"; "sigma"]) (* skew_studentt.py 137-138, 219-220 *)
  | Mlmoment1 => Some (W [A "a"; A "b"; A "mu"; A "sigma"] ["a"; "b"; "mu"; "sigma"] "skew_studentt" Mlmoment1 ["a"; "b"; "mu"; "sigma"]) (* skew_studentt.py 140-141, 224-225 *)
  | Mlmoment2 => Some (W [A "a"; A "b"; A "mu"; A "sigma"] ["a"; "b"; "mu"; "sigma"] "skew_studentt" Mlmoment2 ["a"; "b"; "mu"; "sigma"]) (* skew_studentt.py 143-144, 229-230 *)
  | Mlmoment3 => Some (W [A "a"; A "b"; A "mu"; A "sigma"] ["a"; "b"; "mu"; "sigma"] "skew_studentt" Mlmoment3 ["a"; "b"; "mu"; "sigma"]) (* skew_studentt.py 146-147, 234-235 *)
  | Mlmoment4 => Some (W [A "a"; A "b"; A "mu"; A "sigma"] ["a"; "b"; "mu"; "sigma"] "skew_studentt" Mlmoment4 ["a"; "b"; "mu"; "sigma"]) (* skew_studentt.py 149-150, 239-240 *)
  | Mrvs => Some (W [A "a"; A "b"; A "mu"; A "sigma"] ["a"; "b"; "mu"; "sigma"] "skew_studentt" Mrvs ["a"; "b"; "mu"; "sigma"]) (* skew_studentt.py 152-154, 244-245 *)
  | _ => None
  end.

(** skewnormal.py *)
Definition wrap_SkewNormal (m : method) : option wrapper :=
  match m with
  | Mpdf => Some (W [X; A "mu"; A "sigma"; A "alpha"] ["x"; "mu"; "sigma"; "alpha"] "skewnormal" Mpdf ["x"; "mu"; "sigma"; "alpha"]) (* skewnormal.py 109-110, 170-171 *)
  | Mcdf => Some (W [X; A "mu"; A "sigma"; A "alpha"] ["x"; "mu"; "sigma"; "alpha"] "skewnormal" Mcdf ["x"; "mu"; "sigma"; "alpha"]) (* skewnormal.py 112-113, 175-176 *)
  | Mppf => Some (W [X; A "mu"; A "sigma"; A "alpha"] ["q"; "mu"; "sigma"; "alpha"] "skewnormal" Mppf ["q"; "mu"; "sigma"; "alpha"]) (* skewnormal.py 115-116, 180-181 *)
  | Mlogpdf => Some (W [X; A "mu"; A "sigma"; A "alpha"] ["x"; "mu"; "sigma"; "alpha"] "skewnormal" Mlogpdf ["x"; "mu"; "sigma"; "alpha"]) (* skewnormal.py 118-119, 185-186 *)
  | Mentropy => Some (W [A "mu"; A "sigma"; A "alpha"] ["mu"; "sigma"; "alpha"] "skewnormal" Mentropy ["mu"; "sigma"; "alpha"]) (* skewnormal.py 121-122, 190-191 *)
  | Mmean => Some (W [A "mu"; A "sigma"; A "alpha"] ["mu"; "sigma"; "alpha"] "skewnormal" Mmean ["mu"; "sigma"; "alpha"]) (* skewnormal.py 124-125, 195-196 *)
  | Mmedian => Some (W [A "mu"; A "sigma"; A "alpha"] ["mu"; "sigma"; "alpha"] "skewnormal" Mmedian ["mu"; "sigma"; "alpha"]) (* skewnormal.py 127-128, 205-206 *)
  | Mvar => Some (W [A "mu"; A "sigma"; A "alpha"] ["mu"; "sigma"; "alpha"] "skewnormal" Mvar ["mu"; "sigma"; "alpha"]) (* skewnormal.py 130-131, 210-211 *)
  | Mstd => Some (W [A "mu"; A "sigma"; A "alpha"] ["mu"; "sigma"; "alpha"] "skewnormal" Mstd ["mu"; "sigma"; "alpha"]) (* skewnormal.py 133-134, 215-216 *)
  | Mskewness => Some (W [A "mu"; A "sigma"; A "alpha"] ["mu"; "sigma"; "alpha"] "skewnormal" Mskewness ["mu"; "sigma"; "alpha"]) (* skewnormal.py 136-137, 220-221 *)
  | Mkurtosis => Some (W [A "mu"; A "sigma"; A "alpha"] ["mu"; "sigma"; "alpha"] "skewnormal" Mkurtosis ["mu"; "sigma"; "alpha"]) (* skewnormal.py 139-140, 225-226 *)
  | Mlmoment1 => Some (W [A "mu"; A "sigma"; A "alpha"] ["mu"; "sigma"; "alpha"] "skewnormal" Mlmoment1 ["mu"; "sigma"; "alpha"]) (* skewnormal.py 142-143, 230-231 *)
  | Mlmoment2 => Some (W [A "mu"; A "sigma"; A "alpha"] ["mu"; "sigma"; "alpha"] "skewnormal" Mlmoment2 ["mu"; "sigma"; "alpha"]) (* skewnormal.py 145-146, 235-236 *)
  | Mlmoment3 => Some (W [A "mu"; A "sigma"; A "alpha"] ["mu"; "sigma"; "alpha"] "skewnormal" Mlmoment3 ["mu"; "sigma"; "alpha"]) (* skewnormal.py 148-149, 240-241 *)
  | Mlmoment4 => Some (W [A "mu"; A "sigma"; A "alpha"] ["mu"; "sigma"; "alpha"] "skewnormal" Mlmoment4 ["mu"; "sigma"; "alpha"]) (* skewnormal.py 151-152, 245-246 *)
  | Mrvs => Some (W [A "mu"; A "sigma"; A "alpha"] ["mu"; "sigma"; "alpha"] "skewnormal" Mrvs ["mu"; "sigma"; "alpha"]) (* skewnormal.py 154-156, 250-251 *)
  | _ => None
  end.

(** studentt.py *)
Definition wrap_StudentT (m : method) : option wrapper :=
  match m with
  | Mpdf => Some (W [X; A "nu"; A "mu"; A "sigma"] ["x"; "nu"; "mu"; "sigma"] "studentt" Mpdf ["x"; "nu"; "mu"; "sigma"]) (* studentt.py 112-113, 182-183 *)
  | Mcdf => Some (W [X; A "nu"; A "mu"; A "sigma"] ["x"; "nu"; "mu"; "sigma"] "studentt" Mcdf ["x"; "nu"; "mu"; "sigma"]) (* studentt.py 115-116, 187-188 *)
  | Mppf => Some (W [X; A "nu"; A "mu"; A "sigma"] ["q"; "nu"; "mu"; "sigma"] "studentt" Mppf ["q"; "nu"; "mu"; "sigma"]) (* studentt.py 118-119, 192-193 *)
  | Mlogpdf => Some (W [X; A "nu"; A "mu"; A "sigma"] ["x"; "nu"; "mu"; "sigma"] "studentt" Mlogpdf ["x"; "nu"; "mu"; "sigma"]) (* studentt.py 121-122, 197-198 *)
  | Mentropy => Some (W [A "nu"; A "mu"; A "sigma"] ["nu"; "mu"; "sigma"] "studentt" Mentropy ["nu"; "mu"; "sigma"]) (* studentt.py 124-125, 202-203 *)
  | Mmean => Some (W [A "nu"; A "mu"; A "sigma"] ["nu"; "mu"; "sigma"] "studentt" Mmean ["nu"; "mu"; "sigma"]) (* studentt.py 127-128, 207-208 *)
  | Mmedian => Some (W [A "nu"; A "mu"; A "sigma"] ["nu"; "mu"; "sigma"] "studentt" Mmedian ["nu"; "mu"; "sigma"]) (* studentt.py 133-134, 217-218 *)
  | Mmode => Some (W [A "nu"; A "mu"; A "sigma"] ["nu"; "mu"; "sigma"] "studentt" Mmode ["nu"; "mu"; "sigma"]) (* studentt.py 130-131, 212-213 *)
  | Mvar => Some (W [A "nu"; A "mu"; A "sigma"] ["nu"; "mu"; "sigma"] "studentt" Mvar ["nu"; "mu"; "sigma"]) (* studentt.py 136-137, 222-223 *)
  | Mstd => Some (W [A "nu"; A "mu"; A "sigma"] ["nu"; "mu"; "sigma"] "studentt" Mstd ["nu"; "mu"; "sigma"]) (* studentt.py 139-140, 227-228 *)
  | Mskewness => Some (W [A "nu"; A "mu"; A "sigma"] ["nu"; "mu"; "sigma"] "studentt" Mskewness ["nu"; "mu"; "sigma"]) (* studentt.py 142-143, 232-233 *)
  | Mkurtosis => Some (W [A "nu"; A "mu"; A "sigma"] ["nu"; "mu"; "sigma"] "studentt" Mkurtosis ["nu"; "mu"; "sigma"]) (* studentt.py 145-146, 237-238 *)
  | Mlmoment1 => Some (W [A "nu"; A "mu"; A "sigma"] ["nu"; "mu"; "sigma"] "studentt" Mlmoment1 ["nu"; "mu"; "sigma"]) (* studentt.py 148-149, 242-243 *)
  | Mlmoment2 => Some (W [A "nu"; A "mu"; A "sigma"] ["nu"; "mu"; "sigma"] "studentt" Mlmoment2 ["nu"; "mu"; "sigma"]) (* studentt.py 151-152, 247-248 *)
  | Mlmoment3 => Some (W [A "nu"; A "mu"; A "sigma"] ["nu"; "mu"; "sigma"] "studentt" Mlmoment3 ["nu"; "mu"; "sigma"]) (* studentt.py 154-155, 252-253 *)
  | Mlmoment4 => Some (W [A "nu"; A "mu"; A "sigma"] ["nu"; "mu"; "sigma"] "studentt" Mlmoment4 ["nu"; "mu"; "sigma"]) (* studentt.py 157-158, 257-258 *)
  | Mrvs => Some (W [A "nu"; A "mu"; A "sigma"] ["nu"; "mu"; "sigma"] "studentt" Mrvs ["nu"; "mu"; "sigma"]) (* studentt.py 160-162, 262-263 *)
  | _ => None
  end.

(** triangular.py *)
Definition wrap_Triangular (m : method) : option wrapper :=
  match m with
  | Mpdf => Some (W [X; A "lower"; A "c"; A "upper"] ["x"; "lower"; "c"; "upper"] "triangular" Mpdf ["x"; "lower"; "c"; "upper"]) (* triangular.py 76-77, 143-144 *)
  | Mcdf => Some (W [X; A "lower"; A "c"; A "upper"] ["x"; "lower"; "c"; "upper"] "triangular" Mcdf ["x"; "lower"; "c"; "upper"]) (* triangular.py 79-80, 148-149 *)
  | Mppf => Some (W [X; A "lower"; A "c"; A "upper"] ["q"; "lower"; "c"; "upper"] "triangular" Mppf ["q"; "lower"; "c"; "upper"]) (* triangular.py 82-83, 153-154 *)
  | Mlogpdf => Some (W [X; A "lower"; A "c"; A "upper"] ["x"; "lower"; "c"; "upper"] "triangular" Mlogpdf ["x"; "lower"; "c"; "upper"]) (* triangular.py 85-86, 158-159 *)
  | Mentropy => Some (W [A "lower"; A "c"; A "upper"] ["lower"; "c"; "upper"] "triangular" Mentropy ["lower"; "c"; "upper"]) (* triangular.py 88-89, 163-164 *)
  | Mmean => Some (W [A "lower"; A "c"; A "upper"] ["lower"; "c"; "upper"] "triangular" Mmean ["lower"; "c"; "upper"]) (* triangular.py 91-92, 168-169 *)
  | Mmedian => Some (W [A "lower"; A "c"; A "upper"] ["lower"; "c"; "upper"] "triangular" Mmedian ["lower"; "c"; "upper"]) (* triangular.py 97-98, 178-179 *)
  | Mmode => Some (W [A "lower"; A "c"; A "upper"] ["lower"; "c"; "upper"] "triangular" Mmode ["lower"; "c"; "upper"]) (* triangular.py 94-95, 173-174 *)
  | Mvar => Some (W [A "lower"; A "c"; A "upper"] ["lower"; "c"; "upper"] "triangular" Mvar ["lower"; "c"; "upper"]) (* triangular.py 100-101, 183-184 *)
  | Mstd => Some (W [A "lower"; A "c"; A "upper"] ["lower"; "c"; "upper"] "triangular" Mstd ["lower"; "c"; "upper"]) (* triangular.py 103-104, 188-189 *)
  | Mskewness => Some (W [A "lower"; A "c"; A "upper"] ["lower"; "c"; "upper"] "triangular" Mskewness ["lower"; "c"; "upper"]) (* triangular.py 106-107, 193-194 *)
  | Mkurtosis => Some (W [A "lower"; A "c"; A "upper"] ["lower"; "c"; "upper"] "triangular" Mkurtosis ["lower"; "c"; "upper"]) (* triangular.py 109-110, 198-199 *)
  | Mlmoment1 => Some (W [A "lower"; A "c"; A "upper"] ["lower"; "c"; "upper"] "triangular" Mlmoment1 ["lower"; "c"; "upper"]) (* triangular.py 112-113, 203-204 *)
  | Mlmoment2 => Some (W [A "lower"; A "c"; A "upper"] ["lower"; "c"; "upper"] "triangular" Mlmoment2 ["lower"; "c"; "upper"]) (* triangular.py 115-116, 208-209 *)
  | Mlmoment3 => Some (W [A "lower"; A "c"; A "upper"] ["lower"; "c"; "upper"] "triangular" Mlmoment3 ["lower"; "c"; "upper"]) (* triangular.py 118-119, 213-214 *)
  | Mlmoment4 => Some (W [A "lower"; A "c"; A "upper"] ["lower"; "c"; "upper"] "triangular" Mlmoment4 ["lower"; "c"; "upper"]) (* triangular.py 121-122, 218-219 *)
  | Mrvs => Some (W [A "lower"; A "c"; A "upper"] ["lower"; "c"; "upper"] "triangular" Mrvs ["lower"; "c"; "upper"]) (* triangular.py 124-126, 223-224 *)
  | _ => None
  end.

(** truncatednormal.py *)
Definition wrap_TruncatedNormal (m : method) : option wrapper :=
  match m with
  | Mpdf => Some (W [X; A "mu"; A "sigma"; A "lower"; A "upper"] ["x"; "mu"; "sigma"; "lower"; "upper"] "truncatednormal" Mpdf ["x"; "mu"; "sigma"; "lower"; "upper"]) (* truncatednormal.py 90-91, 152-153 *)
  | Mcdf => Some (W [X; A "mu"; A "sigma"; A "lower"; A "upper"] ["x"; "mu"; "sigma"; "lower"; "upper"] "truncatednormal" Mcdf ["x"; "mu"; "sigma"; "lower"; "upper"]) (* truncatednormal.py 93-94, 157-158 *)
  | Mppf => Some (W [X; A "mu"; A "sigma"; A "lower"; A "upper"] ["q"; "mu"; "sigma"; "lower"; "upper"] "truncatednormal" Mppf ["q"; "mu"; "sigma"; "lower"; "upper"]) (* truncatednormal.py 96-97, 162-163 *)
  | Mlogpdf => Some (W [X; A "mu"; A "sigma"; A "lower"; A "upper"] ["x"; "mu"; "sigma"; "lower"; "upper"] "truncatednormal" Mlogpdf ["x"; "mu"; "sigma"; "lower"; "upper"]) (* truncatednormal.py 99-100, 167-168 *)
  | Mentropy => Some (W [A "mu"; A "sigma"; A "lower"; A "upper"] ["mu"; "sigma"; "lower"; "upper"] "truncatednormal" Mentropy ["mu"; "sigma"; "lower"; "upper"]) (* truncatednormal.py 102-103, 172-173 *)
  | Mmean => Some (W [A "mu"; A "sigma"; A "lower"; A "upper"] ["mu"; "sigma"; "lower"; "upper"] "truncatednormal" Mmean ["mu"; "sigma"; "lower"; "upper"]) (* truncatednormal.py 105-106, 177-178 *)
  | Mmedian => Some (W [A "mu"; A "sigma"; A "lower"; A "upper"] ["mu"; "sigma"; "lower"; "upper"] "truncatednormal" Mmedian ["mu"; "sigma"; "lower"; "upper"]) (* truncatednormal.py 111-112, 187-188 *)
  | Mmode => Some (W [A "mu"; A "sigma"; A "lower"; A "upper"] ["mu"; "sigma"; "lower"; "upper"] "truncatednormal" Mmode ["mu"; "sigma"; "lower"; "upper"]) (* truncatednormal.py 108-109, 182-183 *)
  | Mvar => Some (W [A "mu"; A "sigma"; A "lower"; A "upper"] ["mu"; "sigma"; "lower"; "upper"] "truncatednormal" Mvar ["mu"; "sigma"; "lower"; "upper"]) (* truncatednormal.py 114-115, 192-193 *)
  | Mstd => Some (W [A "mu"; A "sigma"; A "lower"; A "upper"] ["mu"; "sigma"; "lower"; "upper"] "truncatednormal" Mstd ["mu"; "sigma"; "lower"; "upper"]) (* truncatednormal.py 117-118, 197-198 *)
  | Mskewness => Some (W [A "mu"; A "sigma"; A "lower"; A "upper"] ["mu"; "sigma"; "lower"; "upper"] "truncatednormal" Mskewness ["mu"; "sigma"; "lower"; "upper"]) (* truncatednormal.py 120-121, 202-203 *)
  | Mkurtosis => Some (W [A "mu"; A "sigma"; A "lower"; A "upper"] ["mu"; "sigma"; "lower"; "upper"] "truncatednormal" Mkurtosis ["mu"; "sigma"; "lower"; "upper"]) (* truncatednormal.py 123-124, 207-208 *)
  | Mlmoment1 => Some (W [A "mu"; A "sigma"; A "lower"; A "upper"] ["mu"; "sigma"; "lower"; "upper"] "truncatednormal" Mlmoment1 ["mu"; "sigma"; "lower"; "upper"]) (* truncatednormal.py 126-127, 212-213 *)
  | Mlmoment2 => Some (W [A "mu"; A "sigma"; A "lower"; A "upper"] ["mu"; "sigma"; "lower"; "upper"] "truncatednormal" Mlmoment2 ["mu"; "sigma"; "lower"; "upper"]) (* truncatednormal.py 129-130, 217-218 *)
  | Mlmoment3 => Some (W [A "mu"; A "sigma"; A "lower"; A "upper"] ["mu"; "sigma"; "lower"; "upper"] "truncatednormal" Mlmoment3 ["mu"; "sigma"; "lower"; "upper"]) (* truncatednormal.py 132-133, 222-223 *)
  | Mlmoment4 => Some (W [A "mu"; A "sigma"; A "lower"; A "upper"] ["mu"; "sigma"; "lower"; "upper"] "truncatednormal" Mlmoment4 ["mu"; "sigma"; "lower"; "upper"]) (* truncatednormal.py 135-136, 227-228 *)
  | Mrvs => Some (W [A "mu"; A "sigma"; A "lower"; A "upper"] ["mu"; "sigma"; "lower"; "upper"] "truncatednormal" Mrvs ["mu"; "sigma"; "lower"; "upper"]) (* truncatednormal.py 138-140, 232-233 *)
  | _ => None
  end.

(** uniform.py *)
Definition wrap_Uniform (m : method) : option wrapper :=
  match m with
  | Mpdf => Some (W [X; A "lower"; A "upper"] ["x"; "lower"; "upper"] "uniform" Mpdf ["x"; "lower"; "upper"]) (* uniform.py 71-72, 135-136 *)
  | Mcdf => Some (W [X; A "lower"; A "upper"] ["x"; "lower"; "upper"] "uniform" Mcdf ["x"; "lower"; "upper"]) (* uniform.py 74-75, 140-141 *)
  | Mppf => Some (W [X; A "lower"; A "upper"] ["q"; "lower"; "upper"] "uniform" Mppf ["q"; "lower"; "upper"]) (* uniform.py 77-78, 145-146 *)
  | Mlogpdf => Some (W [X; A "lower"; A "upper"] ["x"; "lower"; "upper"] "uniform" Mlogpdf ["x"; "lower"; "upper"]) (* uniform.py 80-81, 150-151 *)
  | Mentropy => Some (W [A "lower"; A "upper"] ["lower"; "upper"] "uniform" Mentropy ["lower"; "upper"]) (* uniform.py 83-84, 155-156 *)
  | Mmean => Some (W [A "lower"; A "upper"] ["lower"; "upper"] "uniform" Mmean ["lower"; "upper"]) (* uniform.py 86-87, 160-161 *)
  | Mmedian => Some (W [A "lower"; A "upper"] ["lower"; "upper"] "uniform" Mmedian ["lower"; "upper"]) (* uniform.py 92-93, 170-171 *)
  | Mmode => Some (W [A "lower"; A "upper"] ["lower"; "upper"] "uniform" Mmode ["lower"; "upper"]) (* uniform.py 89-90, 165-166 *)
  | Mvar => Some (W [A "lower"; A "upper"] ["lower"; "upper"] "uniform" Mvar ["lower"; "upper"]) (* uniform.py 95-96, 175-176 *)
  | Mstd => Some (W [A "lower"; A "upper"] ["lower"; "upper"] "uniform" Mstd ["lower"; "upper"]) (* uniform.py 98-99, 180-181 *)
  | Mskewness => Some (W [A "lower"; A "upper"] ["lower"; "upper"] "uniform" Mskewness ["lower"; "upper"]) (* uniform.py 101-102, 185-186 *)
  | Mkurtosis => Some (W [A "lower"; A "upper"] ["lower"; "upper"] "uniform" Mkurtosis ["lower"; "upper"]) (* uniform.py 104-105, 190-191 *)
  | Mlmoment1 => Some (W [A "lower"; A "upper"] ["lower"; "upper"] "uniform" Mlmoment1 ["lower"; "upper"]) (* uniform.py 107-108, 195-196 *)
  | Mlmoment2 => Some (W [A "lower"; A "upper"] ["lower"; "upper"] "uniform" Mlmoment2 ["lower"; "upper"]) (* uniform.py 110-111, 200-201 *)
  | Mlmoment3 => Some (W [A "lower"; A "upper"] ["lower"; "upper"] "uniform" Mlmoment3 ["lower"; "upper"]) (* uniform.py 113-114, 205-206 *)
  | Mlmoment4 => Some (W [A "lower"; A "upper"] ["lower"; "upper"] "uniform" Mlmoment4 ["lower"; "upper"]) (* uniform.py 116-117, 210-211 *)
  | Mrvs => Some (W [A "lower"; A "upper"] ["lower"; "upper"] "uniform" Mrvs ["lower"; "upper"]) (* uniform.py 119-121, 215-216 *)
  | _ => None
  end.

(** vonmises.py *)
Definition wrap_VonMises (m : method) : option wrapper :=
  match m with
  | Mpdf => Some (W [X; A "mu"; A "kappa"] ["x"; "mu"; "kappa"] "vonmises" Mpdf ["x"; "mu"; "kappa"]) (* vonmises.py 67-68, 158-159 *)
  | Mcdf => Some (W [X; A "mu"; A "kappa"] ["x"; "mu"; "kappa"] "vonmises" Mcdf ["x"; "mu"; "kappa"]) (* vonmises.py 70-71, 163-164 *)
  | Mppf => Some (W [X; A "mu"; A "kappa"] ["q"; "mu"; "kappa"] "vonmises" Mppf ["q"; "mu"; "kappa"]) (* vonmises.py 73-74, 168-169 *)
  | Mlogpdf => Some (W [X; A "mu"; A "kappa"] ["x"; "mu"; "kappa"] "vonmises" Mlogpdf ["x"; "mu"; "kappa"]) (* vonmises.py 76-77, 173-174 *)
  | Mentropy => Some (W [A "mu"; A "kappa"] ["mu"; "kappa"] "vonmises" Mentropy ["mu"; "kappa"]) (* vonmises.py 79-80, 178-179 *)
  | Mmean => Some (W [A "mu"; A "kappa"] ["mu"; "kappa"] "vonmises" Mmean ["mu"; "kappa"]) (* vonmises.py 82-83, 183-184 *)
  | Mmedian => Some (W [A "mu"; A "kappa"] ["mu"; "kappa"] "vonmises" Mmedian ["mu"; "kappa"]) (* vonmises.py 88-89, 193-194 *)
  | Mmode => Some (W [A "mu"; A "kappa"] ["mu"; "kappa"] "vonmises" Mmode ["mu"; "kappa"]) (* vonmises.py 85-86, 188-189 *)
  | Mvar => Some (W [A "mu"; A "kappa"] ["mu"; "kappa"] "vonmises" Mvar ["mu"; "kappa"]) (* vonmises.py 91-92, 198-199 *)
  | Mstd => Some (W [A "mu"; A "kappa"] ["mu"; "kappa"] "vonmises" Mstd ["mu"; "kappa"]) (* vonmises.py 94-95, 203-204 *)
  | Mskewness => Some (W [A "mu"; A "kappa"] ["mu"; "kappa"] "vonmises" Mskewness ["mu"; "kappa"]) (* vonmises.py 97-98, 208-209 *)
  | Mkurtosis => Some (W [A "mu"; A "kappa"] ["mu"; "kappa"] "vonmises" Mkurtosis ["mu"; "kappa"]) (* vonmises.py 100-101, 213-214 *)
  | Mlmoment1 => Some (W [A "mu"; A "kappa"] ["mu"; "kappa"] "vonmises" Mlmoment1 ["mu"; "kappa"]) (* vonmises.py 103-104, 218-219 *)
  | Mlmoment2 => Some (W [A "mu"; A "kappa"] ["mu"; "kappa"] "vonmises" Mlmoment2 ["mu"; "kappa"]) (* vonmises.py 106-107, 223-224 *)
  | Mlmoment3 => Some (W [A "mu"; A "kappa"] ["mu"; "kappa"] "vonmises" Mlmoment3 ["mu"; "kappa"]) (* vonmises.py 109-110, 228-229 *)
  | Mlmoment4 => Some (W [A "mu"; A "kappa"] ["mu"; "kappa"] "vonmises" Mlmoment4 ["mu"; "kappa"]) (* vonmises.py 112-113, 233-234 *)
  | Mrvs => Some (W [A "mu"; A "kappa"] ["mu"; "kappa"] "vonmises" Mrvs ["mu"; "kappa"]) (* vonmises.py 115-117, 238-239 *)
  | _ => None
  end.

(** wald.py *)
Definition wrap_Wald (m : method) : option wrapper :=
  match m with
  | Mpdf => Some (W [X; A "mu"; A "lam"] ["x"; "mu"; "lam"] "wald" Mpdf ["x"; "mu"; "lam"]) (* wald.py 116-117, 177-178 *)
  | Mcdf => Some (W [X; A "mu"; A "lam"] ["x"; "mu"; "lam"] "wald" Mcdf ["x"; "mu"; "lam"]) (* wald.py 119-120, 182-183 *)
  | Mppf => Some (W [X; A "mu"; A "lam"] ["q"; "mu"; "lam"] "wald" Mppf ["q"; "mu"; "lam"]) (* wald.py 122-123, 187-188 *)
  | Mlogpdf => Some (W [X; A "mu"; A "lam"] ["x"; "mu"; "lam"] "wald" Mlogpdf ["x"; "mu"; "lam"]) (* wald.py 125-126, 192-193 *)
  | Mentropy => Some (W [A "mu"; A "lam"] ["mu"; "lam"] "wald" Mentropy ["mu"; "lam"]) (* wald.py 128-129, 197-198 *)
  | Mmean => Some (W [A "mu"; A "lam"] ["mu"; "lam"] "wald" Mmean ["mu"; "lam"]) (* wald.py 131-132, 202-203 *)
  | Mmedian => Some (W [A "mu"; A "lam"] ["mu"; "lam"] "wald" Mmedian ["mu"; "lam"]) (* wald.py 137-138, 212-213 *)
  | Mmode => Some (W [A "mu"; A "lam"] ["mu"; "lam"] "wald" Mmode ["mu"; "lam"]) (* wald.py 134-135, 207-208 *)
  | Mvar => Some (W [A "mu"; A "lam"] ["mu"; "lam"] "wald" Mvar ["mu"; "lam"]) (* wald.py 140-141, 217-218 *)
  | Mstd => Some (W [A "mu"; A "lam"] ["mu"; "lam"] "wald" Mstd ["mu"; "lam"]) (* wald.py 143-144, 222-223 *)
  | Mskewness => Some (W [A "mu"; A "lam"] ["mu"; "lam"] "wald" Mskewness ["mu"; "lam"]) (* wald.py 146-147, 227-228 *)
  | Mkurtosis => Some (W [A "mu"; A "lam"] ["mu"; "lam"] "wald" Mkurtosis ["mu"; "lam"]) (* wald.py 149-150, 232-233 *)
  | Mlmoment1 => Some (W [A "mu"; A "lam"] ["mu"; "lam"] "wald" Mlmoment1 ["mu"; "lam"]) (* wald.py 152-153, 237-238 *)
  | Mlmoment2 => Some (W [A "mu"; A "lam"] ["mu"; "lam"] "wald" Mlmoment2 ["mu"; "lam"]) (* wald.py 155-156, 242-243 *)
  | Mlmoment3 => Some (W [A "mu"; A "lam"] ["mu"; "lam"] "wald" Mlmoment3 ["mu"; "lam"]) (* wald.py 158-159, 247-248 *)
  | Mlmoment4 => Some (W [A "mu"; A "lam"] ["mu"; "lam"] "wald" Mlmoment4 ["mu"; "lam"]) (* wald.py 161-162, 252-253 *)
  | Mrvs => Some (W [A "mu"; A "lam"] ["mu"; "lam"] "wald" Mrvs ["mu"; "lam"]) (* wald.py 164-166, 257-258 *)
  | _ => None
  end.

(** weibull.py *)
Definition wrap_Weibull (m : method) : option wrapper :=
  match m with
  | Mpdf => Some (W [X; A "alpha"; A "beta"] ["x"; "alpha"; "beta"] "weibull" Mpdf ["x"; "alpha"; "beta"]) (* weibull.py 70-71, 133-134 *)
  | Mcdf => Some (W [X; A "alpha"; A "beta"] ["x"; "alpha"; "beta"] "weibull" Mcdf ["x"; "alpha"; "beta"]) (* weibull.py 73-74, 138-139 *)
  | Mppf => Some (W [X; A "alpha"; A "beta"] ["q"; "alpha"; "beta"] "weibull" Mppf ["q"; "alpha"; "beta"]) (* weibull.py 76-77, 143-144 *)
  | Mlogpdf => Some (W [X; A "alpha"; A "beta"] ["x"; "alpha"; "beta"] "weibull" Mlogpdf ["x"; "alpha"; "beta"]) (* weibull.py 79-80, 148-149 *)
  | Mentropy => Some (W [A "alpha"; A "beta"] ["alpha"; "beta"] "weibull" Mentropy ["alpha"; "beta"]) (* weibull.py 82-83, 153-154 *)
  | Mmean => Some (W [A "alpha"; A "beta"] ["alpha"; "beta"] "weibull" Mmean ["alpha"; "beta"]) (* weibull.py 85-86, 158-159 *)
  | Mmedian => Some (W [A "alpha"; A "beta"] ["alpha"; "beta"] "weibull" Mmedian ["alpha"; "beta"]) (* weibull.py 91-92, 168-169 *)
  | Mmode => Some (W [A "alpha"; A "beta"] ["alpha"; "beta"] "weibull" Mmode ["alpha"; "beta"]) (* weibull.py 88-89, 163-164 *)
  | Mvar => Some (W [A "alpha"; A "beta"] ["alpha"; "beta"] "weibull" Mvar ["alpha"; "beta"]) (* weibull.py 94-95, 173-174 *)
  | Mstd => Some (W [A "alpha"; A "beta"] ["alpha"; "beta"] "weibull" Mstd ["alpha"; "beta"]) (* weibull.py 97-98, 178-179 *)
  | Mskewness => Some (W [A "alpha"; A "beta"] ["alpha"; "beta"] "weibull" Mskewness ["alpha"; "beta"]) (* weibull.py 100-101, 183-184 *)
  | Mkurtosis => Some (W [A "alpha"; A "beta"] ["alpha"; "beta"] "weibull" Mkurtosis ["alpha"; "beta"]) (* weibull.py 103-104, 188-189 *)
  | Mlmoment1 => Some (W [A "alpha"; A "beta"] ["alpha"; "beta"] "weibull" Mlmoment1 ["alpha"; "beta"]) (* weibull.py 106-107, 193-194 *)
  | Mlmoment2 => Some (W [A "alpha"; A "beta"] ["alpha"; "beta"] "weibull" Mlmoment2 ["alpha"; "beta"]) (* weibull.py 109-110, 198-199 *)
  | Mlmoment3 => Some (W [A "alpha"; A "beta"] ["alpha"; "beta"] "weibull" Mlmoment3 ["alpha"; "beta"]) (* weibull.py 112-113, 203-204 *)
  | Mlmoment4 => Some (W [A "alpha"; A "beta"] ["alpha"; "beta"] "weibull" Mlmoment4 ["alpha"; "beta"]) (* weibull.py 115-116, 208-209 *)
  | Mrvs => Some (W [A "alpha"; A "beta"] ["alpha"; "beta"] "weibull" Mrvs ["alpha"; "beta"]) (* weibull.py 118-120, 213-214 *)
  | _ => None
  end.

(** zi_binomial.py *)
Definition wrap_ZeroInflatedBinomial (m : method) : option wrapper :=
  match m with
  | Mpdf => Some (W [X; A "psi"; A "n"; A "p"] ["x"; "psi"; "n"; "p"] "zi_binomial" Mpdf ["x"; "psi"; "n"; "p"]) (* zi_binomial.py 75-80, 139-140 *)
  | Mcdf => Some (W [X; A "psi"; A "n"; A "p"] ["x"; "psi"; "n"; "p"] "zi_binomial" Mcdf ["x"; "psi"; "n"; "p"]) (* zi_binomial.py 82-83, 144-145 *)
  | Mppf => Some (W [X; A "psi"; A "n"; A "p"] ["q"; "psi"; "n"; "p"] "zi_binomial" Mppf ["q"; "psi"; "n"; "p"]) (* zi_binomial.py 85-86, 149-150 *)
  | Mlogpdf => Some (W [X; A "psi"; A "n"; A "p"] ["x"; "psi"; "n"; "p"] "zi_binomial" Mlogpdf ["x"; "psi"; "n"; "p"]) (* zi_binomial.py 88-89, 154-155 *)
  | Mentropy => Some (W [A "psi"; A "n"; A "p"] ["psi"; "n"; "p"] "zi_binomial" Mentropy ["psi"; "n"; "p"]) (* zi_binomial.py 91-92, 159-160 *)
  | Mmean => Some (W [A "psi"; A "n"; A "p"] ["psi"; "n"; "p"] "zi_binomial" Mmean ["psi"; "n"; "p"]) (* zi_binomial.py 94-95, 164-165 *)
  | Mmedian => Some (W [A "psi"; A "n"; A "p"] ["psi"; "n"; "p"] "zi_binomial" Mmedian ["psi"; "n"; "p"]) (* zi_binomial.py 100-101, 174-175 *)
  | Mmode => Some (W [A "psi"; A "n"; A "p"] ["psi"; "n"; "p"] "zi_binomial" Mmode ["psi"; "n"; "p"]) (* zi_binomial.py 97-98, 169-170 *)
  | Mvar => Some (W [A "psi"; A "n"; A "p"] ["psi"; "n"; "p"] "zi_binomial" Mvar ["psi"; "n"; "p"]) (* zi_binomial.py 103-104, 179-180 *)
  | Mstd => Some (W [A "psi"; A "n"; A "p"] ["psi"; "n"; "p"] "zi_binomial" Mstd ["psi"; "n"; "p"]) (* zi_binomial.py 106-107, 184-185 *)
  | Mskewness => Some (W [A "psi"; A "n"; A "p"] ["psi"; "n"; "p"] "zi_binomial" Mskewness ["psi"; "n"; "p"]) (* zi_binomial.py 109-110, 189-190 *)
  | Mkurtosis => Some (W [A "psi"; A "n"; A "p"] ["psi"; "n"; "p"] "zi_binomial" Mkurtosis ["psi"; "n"; "p"]) (* zi_binomial.py 112-113, 194-195 *)
  | Mlmoment1 => Some (W [A "psi"; A "n"; A "p"] ["psi"; "n"; "p"] "zi_binomial" Mlmoment1 ["psi"; "n"; "p"]) (* zi_binomial.py 115-116, 199-200 *)
  | Mlmoment2 => Some (W [A "psi"; A "n"; A "p"] ["psi"; "n"; "p"] "zi_binomial" Mlmoment2 ["psi"; "n"; "p"]) (* zi_binomial.py 118-119, 204-205 *)
  | Mlmoment3 => Some (W [A "psi"; A "n"; A "p"] ["psi"; "n"; "p"] "zi_binomial" Mlmoment3 ["psi"; "n"; "p"]) (* zi_binomial.py 121-122, 209-210 *)
  | Mlmoment4 => Some (W [A "psi"; A "n"; A "p"] ["psi"; "n"; "p"] "zi_binomial" Mlmoment4 ["psi"; "n"; "p"]) (* zi_binomial.py 124-125, 214-215 *)
  | Mrvs => Some (W [A "psi"; A "n"; A "p"] ["psi"; "n"; "p"] "zi_binomial" Mrvs ["psi"; "n"; "p"]) (* zi_binomial.py 127-129, 219-220 *)
  | _ => None
  end.

(** zi_negativebinomial.py *)
Definition wrap_ZeroInflatedNegativeBinomial (m : method) : option wrapper :=
  match m with
  | Mpdf => Some (W [X; A "psi"; A "n"; A "p"] ["x"; "psi"; "n"; "p"] "zi_negativebinomial" Mpdf ["x"; "psi"; "n"; "p"]) (* zi_negativebinomial.py 130-136, 195-196 *)
  | Mcdf => Some (W [X; A "psi"; A "n"; A "p"] ["x"; "psi"; "n"; "p"] "zi_negativebinomial" Mcdf ["x"; "psi"; "n"; "p"]) (* zi_negativebinomial.py 138-139, 200-201 *)
  | Mppf => Some (W [X; A "psi"; A "n"; A "p"] ["q"; "psi"; "n"; "p"] "zi_negativebinomial" Mppf ["q"; "psi"; "n"; "p"]) (* zi_negativebinomial.py 141-142, 205-206 *)
  | Mlogpdf => Some (W [X; A "psi"; A "n"; A "p"] ["x"; "psi"; "n"; "p"] "zi_negativebinomial" Mlogpdf ["x"; "psi"; "n"; "p"]) (* zi_negativebinomial.py 144-145, 210-211 *)
  | Mentropy => Some (W [A "psi"; A "n"; A "p"] ["psi"; "n"; "p"] "zi_negativebinomial" Mentropy ["psi"; "n"; "p"]) (* zi_negativebinomial.py 147-148, 215-216 *)
  | Mmean => Some (W [A "psi"; A "n"; A "p"] ["psi"; "n"; "p"] "zi_negativebinomial" Mmean ["psi"; "n"; "p"]) (* zi_negativebinomial.py 150-151, 220-221 *)
  | Mmedian => Some (W [A "psi"; A "n"; A "p"] ["psi"; "n"; "p"] "zi_negativebinomial" Mmedian ["psi"; "n"; "p"]) (* zi_negativebinomial.py 156-157, 230-231 *)
  | Mmode => Some (W [A "psi"; A "n"; A "p"] ["psi"; "n"; "p"] "zi_negativebinomial" Mmode ["psi"; "n"; "p"]) (* zi_negativebinomial.py 153-154, 225-226 *)
  | Mvar => Some (W [A "psi"; A "n"; A "p"] ["psi"; "n"; "p"] "zi_negativebinomial" Mvar ["psi"; "n"; "p"]) (* zi_negativebinomial.py 159-160, 235-236 *)
  | Mstd => Some (W [A "psi"; A "n"; A "p"] ["psi"; "n"; "p"] "zi_negativebinomial" Mstd ["psi"; "n"; "p"]) (* zi_negativebinomial.py 162-163, 240-241 *)
  | Mskewness => Some (W [A "psi"; A "n"; A "p"] ["psi"; "n"; "p"] "zi_negativebinomial" Mskewness ["psi"; "n"; "p"]) (* zi_negativebinomial.py 165-166, 245-246 *)
  | Mkurtosis => Some (W [A "psi"; A "n"; A "p"] ["psi"; "n"; "p"] "zi_negativebinomial" Mkurtosis ["psi"; "n"; "p"]) (* zi_negativebinomial.py 168-169, 250-251 *)
  | Mlmoment1 => Some (W [A "psi"; A "n"; A "p"] ["psi"; "n"; "p"] "zi_negativebinomial" Mlmoment1 ["psi"; "n"; "p"]) (* zi_negativebinomial.py 171-172, 255-256 *)
  | Mlmoment2 => Some (W [A "psi"; A "n"; A "p"] ["psi"; "n"; "p"] "zi_negativebinomial" Mlmoment2 ["psi"; "n"; "p"]) (* zi_negativebinomial.py 174-175, 260-261 *)
  | Mlmoment3 => Some (W [A "psi"; A "n"; A "p"] ["psi"; "n"; "p"] "zi_negativebinomial" Mlmoment3 ["psi"; "n"; "p"]) (* zi_negativebinomial.py 177-178, 265-266 *)
  | Mlmoment4 => Some (W [A "psi"; A "n"; A "p"] ["psi"; "n"; "p"] "zi_negativebinomial" Mlmoment4 ["psi"; "n"; "p"]) (* zi_negativebinomial.py 180-181, 270-271 *)
  | Mrvs => Some (W [A "psi"; A "n"; A "p"] ["psi"; "n"; "p"] "zi_negativebinomial" Mrvs ["psi"; "n"; "p"]) (* zi_negativebinomial.py 183-185, 275-276 *)
  | _ => None
  end.

(** zi_poisson.py *)
Definition wrap_ZeroInflatedPoisson (m : method) : option wrapper :=
  match m with
  | Mpdf => Some (W [X; A "psi"; A "mu"] ["x"; "psi"; "mu"] "zi_poisson" Mpdf ["x"; "psi"; "mu"]) (* zi_poisson.py 75-81, 134-135 *)
  | Mcdf => Some (W [X; A "psi"; A "mu"] ["x"; "psi"; "mu"] "zi_poisson" Mcdf ["x"; "psi"; "mu"]) (* zi_poisson.py 83-84, 139-140 *)
  | Mppf => Some (W [X; A "psi"; A "mu"] ["q"; "psi"; "mu"] "zi_poisson" Mppf ["q"; "psi"; "mu"]) (* zi_poisson.py 86-87, 144-145 *)
  | Mlogpdf => Some (W [X; A "psi"; A "mu"] ["x"; "psi"; "mu"] "zi_poisson" Mlogpdf ["x"; "psi"; "mu"]) (* zi_poisson.py 89-90, 149-150 *)
  | Mentropy => Some (W [A "psi"; A "mu"] ["psi"; "mu"] "zi_poisson" Mentropy ["psi"; "mu"]) (* zi_poisson.py 92-93, 154-155 *)
  | Mmean => Some (W [A "psi"; A "mu"] ["psi"; "mu"] "zi_poisson" Mmean ["psi"; "mu"]) (* zi_poisson.py 95-96, 159-160 *)
  | Mmedian => Some (W [A "psi"; A "mu"] ["psi"; "mu"] "zi_poisson" Mmedian ["psi"; "mu"]) (* zi_poisson.py 101-102, 169-170 *)
  | Mmode => Some (W [A "psi"; A "mu"] ["psi"; "mu"] "zi_poisson" Mmode ["psi"; "mu"]) (* zi_poisson.py 98-99, 164-165 *)
  | Mvar => Some (W [A "psi"; A "mu"] ["psi"; "mu"] "zi_poisson" Mvar ["psi"; "mu"]) (* zi_poisson.py 104-105, 174-175 *)
  | Mstd => Some (W [A "psi"; A "mu"] ["psi"; "mu"] "zi_poisson" Mstd ["psi"; "mu"]) (* zi_poisson.py 107-108, 179-180 *)
  | Mskewness => Some (W [A "psi"; A "mu"] ["psi"; "mu"] "zi_poisson" Mskewness ["psi"; "mu"]) (* zi_poisson.py 110-111, 184-185 *)
  | Mkurtosis => Some (W [A "psi"; A "mu"] ["psi"; "mu"] "zi_poisson" Mkurtosis ["psi"; "mu"]) (* zi_poisson.py 113-114, 189-190 *)
  | Mlmoment1 => Some (W [A "psi"; A "mu"] ["psi"; "mu"] "zi_poisson" Mlmoment1 ["psi"; "mu"]) (* zi_poisson.py 116-117, 194-195 *)
  | Mlmoment2 => Some (W [A "psi"; A "mu"] ["psi"; "mu"] "zi_poisson" Mlmoment2 ["psi"; "mu"]) (* zi_poisson.py 119-120, 199-200 *)
  | Mlmoment3 => Some (W [A "psi"; A "mu"] ["psi"; "mu"] "zi_poisson" Mlmoment3 ["psi"; "mu"]) (* zi_poisson.py 122-123, 204-205 *)
  | Mlmoment4 => Some (W [A "psi"; A "mu"] ["psi"; "mu"] "zi_poisson" Mlmoment4 ["psi"; "mu"]) (* zi_poisson.py 125-126, 209-210 *)
  | Mrvs => Some (W [A "psi"; A "mu"] ["psi"; "mu"] "zi_poisson" Mrvs ["psi"; "mu"]) (* zi_poisson.py 128-130, 214-215 *)
  | _ => None
  end.

Definition wrap (f : family) : method -> option wrapper :=
  match f with
  | AsymmetricLaplace => wrap_AsymmetricLaplace
  | Bernoulli => wrap_Bernoulli
  | Beta => wrap_Beta
  | BetaBinomial => wrap_BetaBinomial
  | BetaScaled => wrap_BetaScaled
  | Binomial => wrap_Binomial
  | Cauchy => wrap_Cauchy
  | ChiSquared => wrap_ChiSquared
  | DiscreteUniform => wrap_DiscreteUniform
  | DiscreteWeibull => wrap_DiscreteWeibull
  | ExGaussian => wrap_ExGaussian
  | Exponential => wrap_Exponential
  | Gamma => wrap_Gamma
  | Geometric => wrap_Geometric
  | Gumbel => wrap_Gumbel
  | HalfCauchy => wrap_HalfCauchy
  | HalfNormal => wrap_HalfNormal
  | HalfStudentT => wrap_HalfStudentT
  | HyperGeometric => wrap_HyperGeometric
  | InverseGamma => wrap_InverseGamma
  | Kumaraswamy => wrap_Kumaraswamy
  | Laplace => wrap_Laplace
  | Logistic => wrap_Logistic
  | LogitNormal => wrap_LogitNormal
  | LogLogistic => wrap_LogLogistic
  | LogNormal => wrap_LogNormal
  | Moyal => wrap_Moyal
  | NegativeBinomial => wrap_NegativeBinomial
  | Normal => wrap_Normal
  | Pareto => wrap_Pareto
  | Poisson => wrap_Poisson
  | Rice => wrap_Rice
  | SkewStudentT => wrap_SkewStudentT
  | SkewNormal => wrap_SkewNormal
  | StudentT => wrap_StudentT
  | Triangular => wrap_Triangular
  | TruncatedNormal => wrap_TruncatedNormal
  | Uniform => wrap_Uniform
  | VonMises => wrap_VonMises
  | Wald => wrap_Wald
  | Weibull => wrap_Weibull
  | ZeroInflatedBinomial => wrap_ZeroInflatedBinomial
  | ZeroInflatedNegativeBinomial => wrap_ZeroInflatedNegativeBinomial
  | ZeroInflatedPoisson => wrap_ZeroInflatedPoisson
  end.
