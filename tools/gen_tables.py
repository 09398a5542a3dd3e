#!/usr/bin/env python3
"""Transcribe the numeric tables of /repo into Coq data files (run by hand; output is committed).

Only the spelling of literals is normalised (".0178" -> "0.0178", "7." -> "7"); no value is rounded.
"""
import re, sys, os
REPO = sys.argv[1] if len(sys.argv) > 1 else "/repo"
OUT = sys.argv[2] if len(sys.argv) > 2 else os.path.join(os.path.dirname(__file__), "../rocq/theories")

def rd(p):
    t = open(os.path.join(REPO, p)).read()
    t = re.sub(r"/\*.*?\*/", " ", t, flags=re.S)
    return re.sub(r"//[^\n]*", " ", t)

NUM = r"[-+]?(?:\d+\.?\d*|\.\d+)(?:[eE][-+]?\d+)?"

def lit(s):
    m = re.fullmatch(r"([-+]?)(\d*)\.?(\d*)(?:[eE]([-+]?\d+))?", s)
    assert m, s
    sign, i, f, e = m.groups()
    sign = "-" if sign == "-" else ""
    i = i or "0"
    r = i + ("." + f if f else "") + ("e" + str(int(e)) if e else "")
    return "(%s%s)" % (sign, r) if sign else r

def block(text, name):
    """the brace-balanced initialiser of array `name`"""
    m = re.search(r"\b%s\s*(\[[^\]]*\]\s*)+=\s*\{" % re.escape(name), text)
    assert m, name
    i = m.end() - 1
    d = 0
    for j in range(i, len(text)):
        if text[j] == "{": d += 1
        elif text[j] == "}":
            d -= 1
            if d == 0: return text[i+1:j]
    assert False

def flat(text, name):
    return [lit(x) for x in re.findall(NUM, block(text, name))]

def rows(text, name):
    return [[lit(x) for x in re.findall(NUM, r)] for r in re.findall(r"\{([^{}]*)\}", block(text, name))]

HEAD = "(** Transcribed by tools/gen_tables.py; do not edit by hand. *)\nFrom Coq Require Import ZArith List.\nFrom Verif Require Import Num.\nImport ListNotations.\nLocal Open Scope dec_scope.\n\n"

def wrap(xs, ind="  "):
    out, line = [], ind
    for k, x in enumerate(xs):
        s = x + ("; " if k + 1 < len(xs) else "")
        if len(line) + len(s) > 110:
            out.append(line.rstrip()); line = ind
        line += s
    out.append(line)
    return "\n".join(out)

def deflist(name, xs, cite, ty="list dec"):
    return "(** %s *)\nDefinition %s : %s := [\n%s].\n\n" % (cite, name, ty, wrap(xs))

def defrows(name, rs, cite):
    return "(** %s *)\nDefinition %s : list (list dec) := [\n%s].\n\n" % (
        cite, name, ";\n".join("  [" + wrap(r, "   ").lstrip() + "]" for r in rs))

def write(fn, body):
    open(os.path.join(OUT, fn), "w").write(HEAD + body)

# --- elemental data
nd = rd("src/nucdata.cpp"); ip = rd("include/catima/data_ionisation_potential.h"); da = rd("include/catima/data_atima.h")
b = deflist("element_atomic_weights", flat(nd, "element_atomic_weights"), "src/nucdata.cpp:4-115, double element_atomic_weights[110]")
b += deflist("element_densities", flat(nd, "element_densities"), "src/nucdata.cpp:117-217, double element_densities[99]")
b += deflist("ionisation_potentials_z", flat(ip, "ionisation_potentials_z"), "include/catima/data_ionisation_potential.h:23-145, ionisation_potentials_z[IPOT_ZMAX+1], IPOT_ZMAX = 120")
for n in ["x0", "x1", "a", "c", "m", "del_0"]:
    b += deflist("density_effect_" + n, flat(da, n), "include/catima/data_atima.h, namespace density_effect, %s[97]" % n)
write("DataElements.v", b)

# --- SRIM
sr = rd("src/srim.cpp")
b = defrows("pse_95", rows(sr, "pse_95"), "src/srim.cpp:161-346, pse_95[92][8]")
b += defrows("proton_stopping_coef", rows(sr, "proton_stopping_coef"), "src/srim.cpp:460-553, proton_stopping_coef[92][8]")
b += deflist("atima_lambda_screening", flat(sr, "atima_lambda_screening"), "src/srim.cpp:364-458, atima_lambda_screening[92]")
b += deflist("atima_vfermi", flat(sr, "atima_vfermi"), "src/srim.cpp:555-647, atima_vfermi[92]")
write("DataSrim.v", b)

# --- Lindhard-Sorensen
ls = rd("include/catima/generated_LS_coeff.h")
for n, f in [("ls_coefficients_a", "DataLSa.v"), ("ls_coefficients_ahi", "DataLSahi.v"), ("ls_X_coefficients_a", "DataLSXa.v"), ("ls_X_coefficients_ahi", "DataLSXahi.v")]:
    r = rows(ls, n)
    write(f, defrows(n, r, "include/catima/generated_LS_coeff.h, double %s[][200]: %d rows" % (n, len(r))))

# --- abundances
ab = rd("src/abundance_database.cpp")
b = deflist("abundance_z_index", flat(ab, "abundance_z_index"), "src/abundance_database.cpp:10, abundance_z_index[]", "list Z").replace("list Z := [", "list Z := ([").replace("].", "])%Z.")
b += deflist("isotopes_a", flat(ab, "isotopes_a"), "src/abundance_database.cpp:14, isotopes_a[]", "list Z").replace("list Z := [", "list Z := ([").replace("].", "])%Z.")
b += deflist("isotopes_abundance", flat(ab, "isotopes_abundance"), "src/abundance_database.cpp:16, isotopes_abundance[]")
write("DataAbundance.v", b)

# --- materials
md = rd("src/material_database.cpp"); mh = rd("include/catima/material_database.h")
ids = {n: int(v) for n, v in re.findall(r"(\w+)\s*=\s*(\d+)", mh)}
ents = []
for n, lst, rho in re.findall(r"case material::(\w+):\s*return Material\(\{(.*?)\},\s*([^,{}]+?)\);", md):
    comps = re.findall(r"\{([^{}]*)\}", lst)
    cs = []
    for c in comps:
        a, z, s = [x.strip() for x in c.split(",")]
        cs.append("(%s, %s%%Z, %s)" % (lit(a), z, lit(s)))
    ents.append((ids[n], n, cs, lit(rho)))
assert len(ents) == md.count("case material::")
b = """(** src/material_database.cpp:14-166, the cases of get_compound: enum value (material_database.h),
    identifier, constituents (A or 0, Z, stn), density.  None of the cases passes an ionisation
    potential or a molar mass. *)
Record compound := Compound { cmp_id : Z; cmp_atoms : list (dec * Z * dec); cmp_density : dec }.

Definition compounds : list compound := [
%s].

(** the identifiers of enum class material, in the same order *)
From Coq Require Import String.
Definition compound_names : list (Z * string) := [
%s].
""" % (";\n".join("  Compound %d%%Z [%s] %s (* %s *)" % (i, "; ".join(cs), rho, n) for i, n, cs, rho in ents),
       ";\n".join('  (%d%%Z, "%s"%%string)' % (i, n) for i, n, _, _ in ents))
write("DataMaterials.v", b)

# --- quadrature nodes
gl = rd("include/catima/glq_integrator.h"); gk = rd("include/catima/gkq_integrator.h")
b = ""
for o, body in re.findall(r"struct GL_data<(\d+)>\{(.*?)\n\};", gl, flags=re.S):
    arrs = re.findall(r"_(x|w)\s*=\s*\{([^}]*)\}", body)
    for n, t in arrs:
        b += deflist("GL%s_%s" % (o, n), [lit(x) for x in re.findall(NUM, t)], "include/catima/glq_integrator.h, GL_data<%s>::%s" % (o, n))
for o, body in re.findall(r"struct GK_data<(\d+)>\{(.*?)\n\};", gk, flags=re.S):
    fns = re.findall(r"&?\s*(\w+)\s*\(\s*\)\s*\{\s*static const std::array<double,\s*\d+>\s*_\w+\s*=\s*\{([^}]*)\}", body)
    for n, t in fns:
        b += deflist("GK%s_%s" % (o, n), [lit(x) for x in re.findall(NUM, t)], "include/catima/gkq_integrator.h, GK_data<%s>::%s" % (o, n))
write("DataQuadrature.v", b)
