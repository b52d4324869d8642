(* The primes dividing the order of the twist group. *)
From Coq Require Import ZArith List Bool Lia Znumtheory.
From Verif Require Import Dig PowD NumT.
Import ListNotations.
Open Scope Z_scope.

Lemma p13 : prime 13. Proof. trialp. Qed. #[export] Hint Resolve p13 : pr.
Lemma p23 : prime 23. Proof. trialp. Qed. #[export] Hint Resolve p23 : pr.
Lemma p2713 : prime 2713. Proof. trialp. Qed. #[export] Hint Resolve p2713 : pr.
Lemma p11953 : prime 11953. Proof. trialp. Qed. #[export] Hint Resolve p11953 : pr.
Lemma p262069 : prime 262069. Proof. trialp. Qed. #[export] Hint Resolve p262069 : pr.
Lemma p587 : prime 587. Proof. trialp. Qed. #[export] Hint Resolve p587 : pr.
Lemma p233 : prime 233. Proof. trialp. Qed. #[export] Hint Resolve p233 : pr.
Lemma p1367711 : prime 1367711. Proof. pockp 2 [587; 233]. Qed. #[export] Hint Resolve p1367711 : pr.
Lemma p541 : prime 541. Proof. trialp. Qed. #[export] Hint Resolve p541 : pr.
Lemma p12192593745179 : prime 12192593745179. Proof. pockp 2 [1367711; 541]. Qed. #[export] Hint Resolve p12192593745179 : pr.
Lemma p512088937297519 : prime 512088937297519. Proof. pockp 2 [12192593745179]. Qed. #[export] Hint Resolve p512088937297519 : pr.
Lemma p1857858664515398933 : prime 1857858664515398933. Proof. pockp 2 [512088937297519]. Qed. #[export] Hint Resolve p1857858664515398933 : pr.
Lemma p22294303974184787197 : prime 22294303974184787197. Proof. pockp 2 [1857858664515398933]. Qed. #[export] Hint Resolve p22294303974184787197 : pr.
Lemma p19931107752921199754119 : prime 19931107752921199754119. Proof. pockp 2 [22294303974184787197]. Qed. #[export] Hint Resolve p19931107752921199754119 : pr.
Lemma p81162125843606155545104998607900118769099783 : prime 81162125843606155545104998607900118769099783. Proof. pockp 2 [19931107752921199754119]. Qed. #[export] Hint Resolve p81162125843606155545104998607900118769099783 : pr.
Lemma p225_prime : prime 26935696298915610574513298451669528361624243820491956655650666425177. Proof. pockp 2 [81162125843606155545104998607900118769099783]. Qed. #[export] Hint Resolve p225_prime : pr.
Lemma p382_prime : prime 4638704574076146691498289350639807119782054683906549022985642612861209609656189848749536921852444848596916990932297. Proof. pockp 2 [26935696298915610574513298451669528361624243820491956655650666425177]. Qed. #[export] Hint Resolve p382_prime : pr.
Lemma p448_prime : prime 402096035359507321594726366720466575392706800671181159425656785868777272553337714697862511267018014931937703598282857976535744623203249. Proof. pockp 2 [4638704574076146691498289350639807119782054683906549022985642612861209609656189848749536921852444848596916990932297]. Qed. #[export] Hint Resolve p448_prime : pr.
