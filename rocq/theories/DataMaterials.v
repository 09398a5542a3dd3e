(** Transcribed by tools/gen_tables.py; do not edit by hand. *)
From Coq Require Import ZArith List.
From Verif Require Import Num.
Import ListNotations.
Local Open Scope dec_scope.

(** src/material_database.cpp:14-166, the cases of get_compound: enum value (material_database.h),
    identifier, constituents (A or 0, Z, stn), density.  None of the cases passes an ionisation
    potential or a molar mass. *)
Record compound := Compound { cmp_id : Z; cmp_atoms : list (dec * Z * dec); cmp_density : dec }.

Definition compounds : list compound := [
  Compound 201%Z [(0, 1%Z, 10); (0, 6%Z, 9)] 1.032 (* Plastics *);
  Compound 202%Z [(0, 7%Z, 0.755267); (0, 8%Z, 0.231781); (0, 18%Z, 0.012827); (0, 6%Z, 0.000124)] 0.001205 (* Air *);
  Compound 203%Z [(0, 6%Z, 1); (0, 1%Z, 2)] 0.94 (* CH2 *);
  Compound 204%Z [(0, 1%Z, 1)] 0.0708 (* lH2 *);
  Compound 205%Z [(2.0141, 1%Z, 1)] 0.162 (* lD2 *);
  Compound 206%Z [(0, 1%Z, 2); (0, 8%Z, 1)] 1 (* Water *);
  Compound 207%Z [(0, 6%Z, 1)] 3.52 (* Diamond *);
  Compound 208%Z [(0, 14%Z, 0.37722); (0, 8%Z, 0.539562); (0, 5%Z, 0.040064); (0, 11%Z, 0.028191); (0, 13%Z, 0.011644); (0, 19%Z, 0.003321)] 2.4 (* Glass *);
  Compound 209%Z [(0, 13%Z, 0.97); (0, 12%Z, 0.03)] 2.67 (* ALMG3 *);
  Compound 210%Z [(0, 18%Z, 0.679); (0, 8%Z, 0.2321); (0, 6%Z, 0.0889)] 0.00171 (* ArCO2_30 *);
  Compound 211%Z [(0, 6%Z, 1); (0, 9%Z, 4)] 0.00372 (* CF4 *);
  Compound 212%Z [(0, 6%Z, 4); (0, 1%Z, 10)] 0.00251 (* Isobutane *);
  Compound 213%Z [(0, 1%Z, 0.026362); (0, 6%Z, 0.691133); (0, 7%Z, 0.07327); (0, 8%Z, 0.209235)] 1.42 (* Kapton *);
  Compound 214%Z [(0, 6%Z, 10); (0, 1%Z, 8); (0, 8%Z, 4)] 1.38 (* Mylar *);
  Compound 215%Z [(0, 11%Z, 1); (0, 9%Z, 1)] 2.56 (* NaF *);
  Compound 216%Z [(0, 18%Z, 9); (0, 6%Z, 1); (0, 1%Z, 4)] 0.00166 (* P10 *);
  Compound 217%Z [(0, 8%Z, 8); (0, 1%Z, 16)] 0.9 (* Polyolefin *);
  Compound 218%Z [(0, 96%Z, 1); (0, 8%Z, 2)] 12 (* CmO2 *);
  Compound 219%Z [(0, 14%Z, 0.37722); (0, 8%Z, 0.539562); (0, 5%Z, 0.040064); (0, 11%Z, 0.028191); (0, 13%Z, 0.011644); (0, 19%Z, 0.003321)] 2.2 (* Suprasil *);
  Compound 220%Z [(0, 27%Z, 0.403228); (0, 24%Z, 0.169412); (0, 28%Z, 0.124301); (0, 74%Z, 0.089847); (0, 42%Z, 0.031259); (0, 26%Z, 0.181952)] 8.3 (* HAVAR *);
  Compound 221%Z [(0, 26%Z, 0.74621); (0, 24%Z, 0.169); (0, 28%Z, 0.08479)] 8 (* Steel *);
  Compound 222%Z [(0, 6%Z, 1); (0, 8%Z, 2)] 0.001842 (* CO2 *);
  Compound 223%Z [(0, 1%Z, 4); (0, 6%Z, 1)] 0.0006 (* Methane *);
  Compound 224%Z [(0, 1%Z, 4); (0, 6%Z, 1); (0, 8%Z, 1)] 0.792 (* Methanol *);
  Compound 225%Z [(0, 1%Z, 6); (0, 6%Z, 3); (0, 8%Z, 1)] 0.7899 (* Acetone *);
  Compound 226%Z [(0, 1%Z, 2); (0, 6%Z, 2)] 0.0010967 (* Acetylene *);
  Compound 227%Z [(0, 1%Z, 5); (0, 6%Z, 5); (0, 7%Z, 5)] 1.35 (* Adenine *);
  Compound 228%Z [(0, 1%Z, 0.119477); (0, 6%Z, 0.63724); (0, 7%Z, 0.00797); (0, 8%Z, 0.232333); (0, 11%Z, 0.0005); (0, 12%Z, 2e-5); (0, 15%Z, 0.00016); (0, 16%Z, 0.00073); (0, 17%Z, 0.00119); (0, 19%Z, 0.00032); (0, 20%Z, 2e-5); (0, 26%Z, 2e-5); (0, 30%Z, 2e-5)] 0.92 (* Adipose_Tissue *);
  Compound 229%Z [(0, 1%Z, 7); (0, 6%Z, 3); (0, 7%Z, 1); (0, 8%Z, 2)] 1.42 (* Alanine *);
  Compound 230%Z [(0, 1%Z, 0.057441); (0, 6%Z, 0.774591); (0, 8%Z, 0.167968)] 1.25 (* Bakelite *);
  Compound 231%Z [(0, 47%Z, 1); (0, 35%Z, 1)] 6.473 (* AgBr *);
  Compound 232%Z [(0, 47%Z, 1); (0, 17%Z, 1)] 5.56 (* AgCl *);
  Compound 233%Z [(0, 47%Z, 1); (0, 53%Z, 1)] 5.675 (* AgI *);
  Compound 234%Z [(0, 8%Z, 3); (0, 13%Z, 2)] 3.97 (* Al2O3 *);
  Compound 235%Z [(0, 1%Z, 0.10593); (0, 6%Z, 0.788974); (0, 8%Z, 0.105096)] 1.1 (* Amber *);
  Compound 236%Z [(0, 1%Z, 3); (0, 7%Z, 1)] 0.000826 (* Ammonia *);
  Compound 237%Z [(0, 1%Z, 7); (0, 6%Z, 6); (0, 7%Z, 1)] 1.0235 (* Aniline *);
  Compound 238%Z [(0, 1%Z, 10); (0, 6%Z, 14)] 1.283 (* Anthracene *);
  Compound 239%Z [(0, 1%Z, 0.101327); (0, 6%Z, 0.7755); (0, 7%Z, 0.035057); (0, 8%Z, 0.0523159); (0, 9%Z, 0.017422); (0, 20%Z, 0.018378)] 1.127 (* A_150 *);
  Compound 240%Z [(0, 1%Z, 0.0654709); (0, 6%Z, 0.536944); (0, 7%Z, 0.0215); (0, 8%Z, 0.032085); (0, 9%Z, 0.167411); (0, 20%Z, 0.176589)] 1.45 (* B_100 *);
  Compound 241%Z [(0, 9%Z, 2); (0, 56%Z, 1)] 4.89 (* BaF2 *);
  Compound 242%Z [(0, 8%Z, 4); (0, 16%Z, 1); (0, 56%Z, 1)] 4.5 (* BaSO4 *);
  Compound 243%Z [(0, 1%Z, 6); (0, 6%Z, 6)] 0.87865 (* Benzene *);
  Compound 244%Z [(0, 4%Z, 1); (0, 8%Z, 1)] 3.01 (* BeO *);
  Compound 245%Z [(0, 8%Z, 12); (0, 32%Z, 3); (0, 83%Z, 4)] 7.13 (* BGO *);
  Compound 246%Z [(0, 1%Z, 0.101866); (0, 6%Z, 0.10002); (0, 7%Z, 0.02964); (0, 8%Z, 0.759414); (0, 11%Z, 0.00185); (0, 12%Z, 4e-5); (0, 14%Z, 3e-5); (0, 15%Z, 0.00035); (0, 16%Z, 0.00185); (0, 17%Z, 0.00278); (0, 19%Z, 0.00163); (0, 20%Z, 6e-5); (0, 26%Z, 0.00046); (0, 30%Z, 1e-5)] 1.06 (* Blood_ICRP *);
  Compound 247%Z [(0, 1%Z, 0.063984); (0, 6%Z, 0.278); (0, 7%Z, 0.027); (0, 8%Z, 0.410016); (0, 12%Z, 0.002); (0, 15%Z, 0.07); (0, 16%Z, 0.002); (0, 20%Z, 0.147)] 1.85 (* Bone_Compact *);
  Compound 248%Z [(0, 1%Z, 0.047234); (0, 6%Z, 0.14433); (0, 7%Z, 0.04199); (0, 8%Z, 0.446096); (0, 12%Z, 0.0022); (0, 15%Z, 0.10497); (0, 16%Z, 0.00315); (0, 20%Z, 0.20993); (0, 30%Z, 0.0001)] 1.85 (* Bone_Cortical *);
  Compound 249%Z [(0, 1%Z, 0.110667); (0, 6%Z, 0.12542); (0, 7%Z, 0.01328); (0, 8%Z, 0.737723); (0, 11%Z, 0.00184); (0, 12%Z, 0.00015); (0, 15%Z, 0.00354); (0, 16%Z, 0.00177); (0, 17%Z, 0.00236); (0, 19%Z, 0.0031); (0, 20%Z, 9e-5); (0, 26%Z, 5e-5); (0, 30%Z, 1e-5)] 1.03 (* Brain_ICRP *);
  Compound 250%Z [(0, 5%Z, 4); (0, 6%Z, 1)] 2.52 (* B4C *);
  Compound 251%Z [(0, 1%Z, 10); (0, 6%Z, 9)] 1.032 (* BC_400 *);
  Compound 252%Z [(0, 1%Z, 10); (0, 6%Z, 4); (0, 8%Z, 1)] 0.81 (* nButanol *);
  Compound 253%Z [(0, 1%Z, 0.02468); (0, 6%Z, 0.50161); (0, 8%Z, 0.004527); (0, 9%Z, 0.465209); (0, 14%Z, 0.003973)] 1.76 (* C_552 *);
  Compound 254%Z [(0, 48%Z, 1); (0, 52%Z, 1)] 6.2 (* CdTe *);
  Compound 255%Z [(0, 8%Z, 4); (0, 48%Z, 1); (0, 74%Z, 1)] 7.9 (* CdWO4 *);
  Compound 256%Z [(0, 6%Z, 1); (0, 8%Z, 3); (0, 20%Z, 1)] 2.8 (* CaCO3 *);
  Compound 257%Z [(0, 9%Z, 2); (0, 20%Z, 1)] 3.18 (* CaF2 *);
  Compound 258%Z [(0, 8%Z, 1); (0, 20%Z, 1)] 3.34 (* CaO *);
  Compound 259%Z [(0, 8%Z, 4); (0, 20%Z, 1); (0, 74%Z, 1)] 6.062 (* CaWO4 *);
  Compound 260%Z [(0, 9%Z, 1); (0, 55%Z, 1)] 4.115 (* CsF *);
  Compound 261%Z [(0, 53%Z, 1); (0, 55%Z, 1)] 4.51 (* CsI *);
  Compound 262%Z [(0, 6%Z, 1); (0, 17%Z, 4)] 1.594 (* CCl4 *);
  Compound 263%Z [(0, 6%Z, 2); (0, 17%Z, 4)] 1.622 (* Tetrachloroethylene *);
  Compound 264%Z [(0, 1%Z, 0.062162); (0, 6%Z, 0.444462); (0, 8%Z, 0.493376)] 1.42 (* Cellophane *);
  Compound 265%Z [(0, 1%Z, 5); (0, 6%Z, 6); (0, 17%Z, 1)] 1.1058 (* Chlorobenzene *);
  Compound 266%Z [(0, 1%Z, 1); (0, 6%Z, 1); (0, 17%Z, 3)] 1.4832 (* Chloroform *);
  Compound 267%Z [(0, 1%Z, 12); (0, 6%Z, 6)] 0.779 (* Cyclohexane *);
  Compound 268%Z [(0, 1%Z, 0.01); (0, 6%Z, 0.001); (0, 8%Z, 0.529107); (0, 11%Z, 0.016); (0, 12%Z, 0.002); (0, 13%Z, 0.033872); (0, 14%Z, 0.337021); (0, 19%Z, 0.013); (0, 20%Z, 0.044); (0, 26%Z, 0.014)] 2.3 (* Concrete *);
  Compound 269%Z [(0, 1%Z, 10); (0, 6%Z, 4); (0, 8%Z, 1)] 0.71378 (* Diethyl_Ether *);
  Compound 270%Z [(0, 1%Z, 6); (0, 6%Z, 2)] 0.00125324 (* Ethane *);
  Compound 271%Z [(0, 1%Z, 6); (0, 6%Z, 2); (0, 8%Z, 1)] 0.7893 (* Ethanol *);
  Compound 272%Z [(0, 1%Z, 4); (0, 6%Z, 2)] 0.00117497 (* Ethylene *);
  Compound 273%Z [(0, 1%Z, 0.099269); (0, 6%Z, 0.19371); (0, 7%Z, 0.05327); (0, 8%Z, 0.653751)] 1.1 (* Eye_lens *);
  Compound 274%Z [(0, 8%Z, 3); (0, 26%Z, 2)] 5.242 (* Fe2O3 *);
  Compound 275%Z [(0, 8%Z, 1); (0, 26%Z, 1)] 5.745 (* FeO *);
  Compound 276%Z [(0, 6%Z, 1); (0, 9%Z, 2); (0, 17%Z, 2)] 1.486 (* Freon_12 *);
  Compound 277%Z [(0, 6%Z, 1); (0, 9%Z, 2); (0, 35%Z, 2)] 2.27 (* Freon_12B2 *);
  Compound 278%Z [(0, 6%Z, 1); (0, 9%Z, 3); (0, 17%Z, 1)] 1.526 (* Freon_13 *);
  Compound 279%Z [(0, 6%Z, 1); (0, 9%Z, 3); (0, 35%Z, 1)] 1.538 (* Freon_13B1 *);
  Compound 280%Z [(0, 6%Z, 1); (0, 9%Z, 3); (0, 53%Z, 1)] 1.538 (* Freon_13I1 *);
  Compound 281%Z [(0, 8%Z, 2); (0, 16%Z, 1); (0, 64%Z, 2)] 7.44 (* Gd2O2S *);
  Compound 282%Z [(0, 31%Z, 1); (0, 33%Z, 1)] 5.3176 (* GaAs *);
  Compound 283%Z [(0, 1%Z, 0.08118); (0, 6%Z, 0.41606); (0, 7%Z, 0.11124); (0, 8%Z, 0.38064); (0, 16%Z, 0.01088)] 1.2914 (* Gel_Photo_Emulsion *);
  Compound 284%Z [(0, 5%Z, 0.0400639); (0, 8%Z, 0.539561); (0, 11%Z, 0.0281909); (0, 13%Z, 0.011644); (0, 14%Z, 0.377219); (0, 19%Z, 0.00332099)] 2.23 (* Glass_Pyrex *);
  Compound 285%Z [(0, 8%Z, 0.156453); (0, 14%Z, 0.080866); (0, 22%Z, 0.008092); (0, 33%Z, 0.002651); (0, 82%Z, 0.751938)] 6.22 (* Glass_Lead *);
  Compound 286%Z [(0, 1%Z, 12); (0, 6%Z, 6); (0, 8%Z, 6)] 1.54 (* Glucose *);
  Compound 287%Z [(0, 1%Z, 10); (0, 6%Z, 5); (0, 7%Z, 2); (0, 8%Z, 3)] 1.46 (* Glutamine *);
  Compound 288%Z [(0, 1%Z, 8); (0, 6%Z, 3); (0, 8%Z, 3)] 1.2613 (* Glycerol *);
  Compound 289%Z [(0, 1%Z, 5); (0, 6%Z, 5); (0, 7%Z, 5); (0, 8%Z, 1)] 1.58 (* Guanine *);
  Compound 290%Z [(0, 1%Z, 0.023416); (0, 8%Z, 0.557572); (0, 16%Z, 0.186215); (0, 20%Z, 0.232797)] 2.32 (* Gypsum *);
  Compound 291%Z [(0, 1%Z, 16); (0, 6%Z, 7)] 0.68376 (* nHeptane *);
  Compound 292%Z [(0, 1%Z, 14); (0, 6%Z, 6)] 0.66603 (* nHexane *);
  Compound 293%Z [(0, 19%Z, 1); (0, 53%Z, 1)] 3.13 (* KI *);
  Compound 294%Z [(0, 8%Z, 1); (0, 19%Z, 2)] 2.32 (* K2O *);
  Compound 295%Z [(0, 57%Z, 1); (0, 35%Z, 3)] 5.06 (* LaBr3 *);
  Compound 296%Z [(0, 8%Z, 1); (0, 35%Z, 1); (0, 57%Z, 1)] 6.28 (* LaOBr *);
  Compound 297%Z [(0, 8%Z, 2); (0, 16%Z, 1); (0, 57%Z, 2)] 5.86 (* La2O2S *);
  Compound 298%Z [(0, 1%Z, 0.101278); (0, 6%Z, 0.10231); (0, 7%Z, 0.02865); (0, 8%Z, 0.757072); (0, 11%Z, 0.00184); (0, 12%Z, 0.00073); (0, 15%Z, 0.0008); (0, 16%Z, 0.00225); (0, 17%Z, 0.00266); (0, 19%Z, 0.00194); (0, 20%Z, 9e-5); (0, 26%Z, 0.00037); (0, 30%Z, 1e-5)] 1.05 (* Lung *);
  Compound 299%Z [(0, 12%Z, 1); (0, 6%Z, 1); (0, 8%Z, 3)] 2.958 (* MgCO3 *);
  Compound 300%Z [(0, 12%Z, 1); (0, 9%Z, 2)] 3.148 (* MgF2 *);
  Compound 301%Z [(0, 12%Z, 1); (0, 8%Z, 1)] 3.6 (* MgO *);
  Compound 302%Z [(0, 1%Z, 0.081192); (0, 6%Z, 0.583442); (0, 7%Z, 0.017798); (0, 8%Z, 0.186381); (0, 12%Z, 0.130287); (0, 17%Z, 0.0009)] 1 (* MS20_Tissue *);
  Compound 303%Z [(0, 1%Z, 0.100637); (0, 6%Z, 0.10783); (0, 7%Z, 0.02768); (0, 8%Z, 0.754773); (0, 11%Z, 0.00075); (0, 12%Z, 0.00019); (0, 15%Z, 0.0018); (0, 16%Z, 0.00241); (0, 17%Z, 0.00079); (0, 19%Z, 0.00302); (0, 20%Z, 3e-5); (0, 26%Z, 4e-5); (0, 30%Z, 5e-5)] 1.04 (* Muscle_skeletal *);
  Compound 304%Z [(0, 1%Z, 0.101997); (0, 6%Z, 0.123); (0, 7%Z, 0.035); (0, 8%Z, 0.729003); (0, 11%Z, 0.0008); (0, 12%Z, 0.0002); (0, 15%Z, 0.002); (0, 16%Z, 0.005); (0, 19%Z, 0.003)] 1.04 (* Muscle_strained *);
  Compound 305%Z [(0, 1%Z, 0.0982341); (0, 6%Z, 0.156214); (0, 7%Z, 0.035451); (0, 8%Z, 0.710101)] 1.11 (* Muscle_sucrose *);
  Compound 306%Z [(0, 1%Z, 0.101969); (0, 6%Z, 0.120058); (0, 7%Z, 0.035451); (0, 8%Z, 0.742522)] 1.07 (* Muscle_no_sucrose *);
  Compound 307%Z [(0, 6%Z, 1); (0, 8%Z, 3); (0, 11%Z, 1)] 2.532 (* Na2CO3 *);
  Compound 308%Z [(0, 11%Z, 1); (0, 53%Z, 1)] 3.667 (* NaI *);
  Compound 309%Z [(0, 11%Z, 1); (0, 17%Z, 1)] 2.165 (* NaCl *);
  Compound 310%Z [(0, 8%Z, 1); (0, 11%Z, 2)] 2.27 (* Na2O *);
  Compound 311%Z [(0, 7%Z, 1); (0, 8%Z, 3); (0, 11%Z, 1)] 2.261 (* NaNO3 *);
  Compound 312%Z [(0, 1%Z, 8); (0, 6%Z, 10)] 1.145 (* Naphthalene *);
  Compound 313%Z [(0, 1%Z, 5); (0, 6%Z, 6); (0, 7%Z, 1); (0, 8%Z, 2)] 1.199 (* Nitrobenzene *);
  Compound 314%Z [(0, 7%Z, 2); (0, 8%Z, 1)] 0.00183 (* N2O *);
  Compound 315%Z [(0, 1%Z, 18); (0, 6%Z, 8)] 0.703 (* Octane *);
  Compound 316%Z [(0, 1%Z, 0.148605); (0, 6%Z, 0.851395)] 0.93 (* Paraffin *);
  Compound 317%Z [(0, 1%Z, 12); (0, 6%Z, 5)] 0.626 (* nPentane *);
  Compound 318%Z [(0, 1%Z, 0.0141); (0, 6%Z, 0.072261); (0, 7%Z, 0.01932); (0, 8%Z, 0.066101); (0, 16%Z, 0.00189); (0, 35%Z, 0.349103); (0, 47%Z, 0.474105)] 3.815 (* PhotoEmulsion *);
  Compound 319%Z [(0, 8%Z, 2); (0, 94%Z, 1)] 11.46 (* PuO2 *);
  Compound 320%Z [(0, 1%Z, 3); (0, 6%Z, 3); (0, 7%Z, 1)] 1.184 (* Polyacrylonitrile *);
  Compound 321%Z [(0, 1%Z, 0.055491); (0, 6%Z, 0.755751); (0, 8%Z, 0.188758)] 1.2 (* Polycarbonate *);
  Compound 322%Z [(0, 1%Z, 8); (0, 6%Z, 5); (0, 8%Z, 2)] 1.18 (* PMMA *);
  Compound 323%Z [(0, 1%Z, 2); (0, 6%Z, 1); (0, 8%Z, 1)] 1.42 (* POM *);
  Compound 324%Z [(0, 6%Z, 3); (0, 1%Z, 6)] 0.9 (* Polypropylene *);
  Compound 325%Z [(0, 6%Z, 8); (0, 1%Z, 8)] 1.06 (* Polystyrene *);
  Compound 326%Z [(0, 1%Z, 8); (0, 6%Z, 3)] 0.00188 (* Propane *);
  Compound 327%Z [(0, 1%Z, 8); (0, 6%Z, 3); (0, 8%Z, 1)] 0.8035 (* nPropanol *);
  Compound 328%Z [(0, 1%Z, 3); (0, 6%Z, 2); (0, 17%Z, 1)] 1.3 (* PVC *);
  Compound 329%Z [(0, 1%Z, 5); (0, 6%Z, 5); (0, 7%Z, 1)] 0.9819 (* Pyridine *);
  Compound 330%Z [(0, 8%Z, 2); (0, 14%Z, 1)] 2.32 (* SiO2 *);
  Compound 331%Z [(0, 1%Z, 0.100588); (0, 6%Z, 0.22825); (0, 7%Z, 0.04642); (0, 8%Z, 0.619002); (0, 11%Z, 7e-5); (0, 12%Z, 6e-5); (0, 15%Z, 0.00033); (0, 16%Z, 0.00159); (0, 17%Z, 0.00267); (0, 19%Z, 0.00085); (0, 20%Z, 0.00015); (0, 26%Z, 1e-5); (0, 30%Z, 1e-5)] 1.1 (* Skin *);
  Compound 332%Z [(0, 1%Z, 22); (0, 6%Z, 12); (0, 8%Z, 11)] 1.587 (* Sucrose *);
  Compound 333%Z [(0, 6%Z, 2); (0, 9%Z, 4)] 2.2 (* Teflon *);
  Compound 334%Z [(0, 17%Z, 1); (0, 81%Z, 1)] 7.004 (* TlCl *);
  Compound 335%Z [(0, 1%Z, 8); (0, 6%Z, 7)] 0.8669 (* Toluene *);
  Compound 336%Z [(0, 1%Z, 1); (0, 6%Z, 2); (0, 17%Z, 3)] 1.46 (* Trichloroethylene *);
  Compound 337%Z [(0, 9%Z, 6); (0, 74%Z, 1)] 2.4 (* WF6 *);
  Compound 338%Z [(0, 6%Z, 2); (0, 92%Z, 1)] 11.28 (* UC2 *);
  Compound 339%Z [(0, 6%Z, 1); (0, 92%Z, 1)] 13.63 (* UC *);
  Compound 340%Z [(0, 8%Z, 2); (0, 92%Z, 1)] 10.97 (* UO2 *);
  Compound 341%Z [(0, 1%Z, 0.067131); (0, 6%Z, 0.2); (0, 7%Z, 0.466459); (0, 8%Z, 0.266411)] 1.323 (* Urea *);
  Compound 342%Z [(0, 1%Z, 11); (0, 6%Z, 5); (0, 7%Z, 1); (0, 8%Z, 2)] 1.23 (* Valine *);
  Compound 343%Z [(0, 6%Z, 10); (0, 1%Z, 7); (0, 53%Z, 1)] 1.738 (* Iodonaphthalene *);
  Compound 344%Z [(0, 6%Z, 21); (0, 1%Z, 24); (0, 8%Z, 4)] 1.18 (* C21H24O4 *);
  Compound 345%Z [(0, 27%Z, 17); (0, 75%Z, 23); (0, 24%Z, 1)] 11.5 (* CoRe_Alloy *);
  Compound 346%Z [(0, 3%Z, 7); (0, 57%Z, 3); (0, 40%Z, 2); (0, 8%Z, 12)] 5.1 (* LLZO_electrolyte *);
  Compound 347%Z [(0, 6%Z, 6); (0, 1%Z, 11); (0, 7%Z, 1); (0, 8%Z, 1)] 1.14 (* Nylon *);
  Compound 348%Z [(0, 29%Z, 0.63); (0, 30%Z, 0.35); (0, 82%Z, 0.02)] 8.73 (* Brass *);
  Compound 349%Z [(0, 1%Z, 0.0759); (0, 6%Z, 0.9041); (0, 6%Z, 0.008); (0, 22%Z, 0.012)] 1.045 (* RW3 *)].

(** the identifiers of enum class material, in the same order *)
From Coq Require Import String.
Definition compound_names : list (Z * string) := [
  (201%Z, "Plastics"%string);
  (202%Z, "Air"%string);
  (203%Z, "CH2"%string);
  (204%Z, "lH2"%string);
  (205%Z, "lD2"%string);
  (206%Z, "Water"%string);
  (207%Z, "Diamond"%string);
  (208%Z, "Glass"%string);
  (209%Z, "ALMG3"%string);
  (210%Z, "ArCO2_30"%string);
  (211%Z, "CF4"%string);
  (212%Z, "Isobutane"%string);
  (213%Z, "Kapton"%string);
  (214%Z, "Mylar"%string);
  (215%Z, "NaF"%string);
  (216%Z, "P10"%string);
  (217%Z, "Polyolefin"%string);
  (218%Z, "CmO2"%string);
  (219%Z, "Suprasil"%string);
  (220%Z, "HAVAR"%string);
  (221%Z, "Steel"%string);
  (222%Z, "CO2"%string);
  (223%Z, "Methane"%string);
  (224%Z, "Methanol"%string);
  (225%Z, "Acetone"%string);
  (226%Z, "Acetylene"%string);
  (227%Z, "Adenine"%string);
  (228%Z, "Adipose_Tissue"%string);
  (229%Z, "Alanine"%string);
  (230%Z, "Bakelite"%string);
  (231%Z, "AgBr"%string);
  (232%Z, "AgCl"%string);
  (233%Z, "AgI"%string);
  (234%Z, "Al2O3"%string);
  (235%Z, "Amber"%string);
  (236%Z, "Ammonia"%string);
  (237%Z, "Aniline"%string);
  (238%Z, "Anthracene"%string);
  (239%Z, "A_150"%string);
  (240%Z, "B_100"%string);
  (241%Z, "BaF2"%string);
  (242%Z, "BaSO4"%string);
  (243%Z, "Benzene"%string);
  (244%Z, "BeO"%string);
  (245%Z, "BGO"%string);
  (246%Z, "Blood_ICRP"%string);
  (247%Z, "Bone_Compact"%string);
  (248%Z, "Bone_Cortical"%string);
  (249%Z, "Brain_ICRP"%string);
  (250%Z, "B4C"%string);
  (251%Z, "BC_400"%string);
  (252%Z, "nButanol"%string);
  (253%Z, "C_552"%string);
  (254%Z, "CdTe"%string);
  (255%Z, "CdWO4"%string);
  (256%Z, "CaCO3"%string);
  (257%Z, "CaF2"%string);
  (258%Z, "CaO"%string);
  (259%Z, "CaWO4"%string);
  (260%Z, "CsF"%string);
  (261%Z, "CsI"%string);
  (262%Z, "CCl4"%string);
  (263%Z, "Tetrachloroethylene"%string);
  (264%Z, "Cellophane"%string);
  (265%Z, "Chlorobenzene"%string);
  (266%Z, "Chloroform"%string);
  (267%Z, "Cyclohexane"%string);
  (268%Z, "Concrete"%string);
  (269%Z, "Diethyl_Ether"%string);
  (270%Z, "Ethane"%string);
  (271%Z, "Ethanol"%string);
  (272%Z, "Ethylene"%string);
  (273%Z, "Eye_lens"%string);
  (274%Z, "Fe2O3"%string);
  (275%Z, "FeO"%string);
  (276%Z, "Freon_12"%string);
  (277%Z, "Freon_12B2"%string);
  (278%Z, "Freon_13"%string);
  (279%Z, "Freon_13B1"%string);
  (280%Z, "Freon_13I1"%string);
  (281%Z, "Gd2O2S"%string);
  (282%Z, "GaAs"%string);
  (283%Z, "Gel_Photo_Emulsion"%string);
  (284%Z, "Glass_Pyrex"%string);
  (285%Z, "Glass_Lead"%string);
  (286%Z, "Glucose"%string);
  (287%Z, "Glutamine"%string);
  (288%Z, "Glycerol"%string);
  (289%Z, "Guanine"%string);
  (290%Z, "Gypsum"%string);
  (291%Z, "nHeptane"%string);
  (292%Z, "nHexane"%string);
  (293%Z, "KI"%string);
  (294%Z, "K2O"%string);
  (295%Z, "LaBr3"%string);
  (296%Z, "LaOBr"%string);
  (297%Z, "La2O2S"%string);
  (298%Z, "Lung"%string);
  (299%Z, "MgCO3"%string);
  (300%Z, "MgF2"%string);
  (301%Z, "MgO"%string);
  (302%Z, "MS20_Tissue"%string);
  (303%Z, "Muscle_skeletal"%string);
  (304%Z, "Muscle_strained"%string);
  (305%Z, "Muscle_sucrose"%string);
  (306%Z, "Muscle_no_sucrose"%string);
  (307%Z, "Na2CO3"%string);
  (308%Z, "NaI"%string);
  (309%Z, "NaCl"%string);
  (310%Z, "Na2O"%string);
  (311%Z, "NaNO3"%string);
  (312%Z, "Naphthalene"%string);
  (313%Z, "Nitrobenzene"%string);
  (314%Z, "N2O"%string);
  (315%Z, "Octane"%string);
  (316%Z, "Paraffin"%string);
  (317%Z, "nPentane"%string);
  (318%Z, "PhotoEmulsion"%string);
  (319%Z, "PuO2"%string);
  (320%Z, "Polyacrylonitrile"%string);
  (321%Z, "Polycarbonate"%string);
  (322%Z, "PMMA"%string);
  (323%Z, "POM"%string);
  (324%Z, "Polypropylene"%string);
  (325%Z, "Polystyrene"%string);
  (326%Z, "Propane"%string);
  (327%Z, "nPropanol"%string);
  (328%Z, "PVC"%string);
  (329%Z, "Pyridine"%string);
  (330%Z, "SiO2"%string);
  (331%Z, "Skin"%string);
  (332%Z, "Sucrose"%string);
  (333%Z, "Teflon"%string);
  (334%Z, "TlCl"%string);
  (335%Z, "Toluene"%string);
  (336%Z, "Trichloroethylene"%string);
  (337%Z, "WF6"%string);
  (338%Z, "UC2"%string);
  (339%Z, "UC"%string);
  (340%Z, "UO2"%string);
  (341%Z, "Urea"%string);
  (342%Z, "Valine"%string);
  (343%Z, "Iodonaphthalene"%string);
  (344%Z, "C21H24O4"%string);
  (345%Z, "CoRe_Alloy"%string);
  (346%Z, "LLZO_electrolyte"%string);
  (347%Z, "Nylon"%string);
  (348%Z, "Brass"%string);
  (349%Z, "RW3"%string)].
