# Axioms

Every theorem listed in `MANIFEST.json` is "Closed under the global context":
`Print Assumptions` stands below each of them and is printed by the build.

The development declares no axioms, parameters or hypotheses outside sections.

A check of all loaded libraries (`coqchk -o`) also reports axioms of modules
that are merely loaded. They come from the standard library and no theorem here
depends on them:

* `Coq.ssr.ssrunder.Under_rel.Under_rel`
* `Coq.ssr.ssrunder.Under_rel.Under_rel_from_rel`
* `Coq.ssr.ssrunder.Under_rel.Under_relE`
* `Coq.ssr.ssrunder.Under_rel.under_rel_done`
* `Coq.ssr.ssrunder.Under_rel.Over_rel`
* `Coq.ssr.ssrunder.Under_rel.over_rel`
* `Coq.ssr.ssrunder.Under_rel.over_rel_done`
