(** Generated by /verif/tools/gen_tables.py from includes/sol_struct_data.h with
    RHYOLITE_ADJUSTMENTS defined (Makefile.common:696), and includes/liq_struct_data.h.
    Each entry: label, [true] for type PHASE / [false] for COMPONENT, formula. *)
From Coq Require Import String List Ascii.
Import ListNotations.
Local Open Scope string_scope.

(** includes/sol_struct_data.h:845-2356 *)
Definition tbl_xMeltsSolids : list (string * bool * string) := [
  ("olivine", true, "");
  ("tephroite", false, "Mn2SiO4");
  ("fayalite", false, "Fe2SiO4");
  ("co-olivine", false, "Co2SiO4");
  ("ni-olivine", false, "Ni2SiO4");
  ("monticellite", false, "CaMgSiO4");
  ("forsterite", false, "Mg2SiO4");
  ("fayalite", true, "Fe2SiO4");
  ("sphene", true, "CaTiSiO5");
  ("garnet", true, "");
  ("almandine", false, "Fe3Al2Si3O12");
  ("grossular", false, "Ca3Al2Si3O12");
  ("pyrope", false, "Mg3Al2Si3O12");
  ("melilite", true, "");
  ("akermanite", false, "Ca2MgSi2O7");
  ("gehlenite", false, "Ca2Al2SiO7");
  ("iron-akermanite", false, "Ca2FeSi2O7");
  ("soda-melilite", false, "Na2Si3O7");
  ("orthopyroxene", true, "");
  ("diopside", false, "CaMgSi2O6");
  ("clinoenstatite", false, "Mg2Si2O6");
  ("hedenbergite", false, "CaFeSi2O6");
  ("alumino-buffonite", false, "CaTi0.5Mg0.5AlSiO6");
  ("buffonite", false, "CaTi0.5Mg0.5FeSiO6");
  ("essenite", false, "CaFeAlSiO6");
  ("jadeite", false, "NaAlSi2O6");
  ("clinopyroxene", true, "");
  ("diopside", false, "CaMgSi2O6");
  ("clinoenstatite", false, "Mg2Si2O6");
  ("hedenbergite", false, "CaFeSi2O6");
  ("alumino-buffonite", false, "CaTi0.5Mg0.5AlSiO6");
  ("buffonite", false, "CaTi0.5Mg0.5FeSiO6");
  ("essenite", false, "CaFeAlSiO6");
  ("jadeite", false, "NaAlSi2O6");
  ("aegirine", true, "NaFeSi2O6");
  ("aenigmatite", true, "Na2Fe5TiSi6O20");
  ("cummingtonite", true, "");
  ("cummingtonite", false, "Mg7Si8O22(OH)2");
  ("grunerite", false, "Fe7Si8O22(OH)2");
  ("amphibole", true, "");
  ("cummingtonite", false, "Mg7Si8O22(OH)2");
  ("grunerite", false, "Fe7Si8O22(OH)2");
  ("tremolite", false, "Ca2Mg5Si8O22(OH)2");
  ("hornblende", true, "");
  ("pargasite", false, "NaCa2Mg4AlAl2Si6O22(OH)2");
  ("ferropargasite", false, "NaCa2Fe4AlAl2Si6O22(OH)2");
  ("magnesiohastingsite", false, "NaCa2Mg4FeAl2Si6O22(OH)2");
  ("biotite", true, "");
  ("annite", false, "KFe3Si3AlO10(OH)2");
  ("phlogopite", false, "KMg3Si3AlO10(OH)2");
  ("muscovite", true, "KAl2Si3AlO10(OH)2");
  ("feldspar", true, "");
  ("albite", false, "NaAlSi3O8");
  ("anorthite", false, "CaAl2Si2O8");
  ("sanidine", false, "KAlSi3O8");
  ("quartz", true, "SiO2");
  ("tridymite", true, "SiO2");
  ("cristobalite", true, "SiO2");
  ("nepheline", true, "");
  ("na-nepheline", false, "Na4Al4Si4O16");
  ("k-nepheline", false, "K4Al4Si4O16");
  ("vc-nepheline", false, "Na3Al3Si5O16");
  ("ca-nepheline", false, "CaNa2Al4Si4O16");
  ("kalsilite", true, "");
  ("na-nepheline", false, "Na4Al4Si4O16");
  ("k-nepheline", false, "K4Al4Si4O16");
  ("vc-nepheline", false, "Na3Al3Si5O16");
  ("ca-nepheline", false, "CaNa2Al4Si4O16");
  ("leucite", true, "");
  ("leucite", false, "KAlSi2O6");
  ("analcime", false, "NaAlSi2O5(OH)2");
  ("na-leucite", false, "NaAlSi2O6");
  ("corundum", true, "Al2O3");
  ("sillimanite", true, "Al2SiO5");
  ("rutile", true, "TiO2");
  ("perovskite", true, "CaTiO3");
  ("spinel", true, "");
  ("chromite", false, "FeCr2O4");
  ("hercynite", false, "FeAl2O4");
  ("magnetite", false, "Fe3O4");
  ("spinel", false, "MgAl2O4");
  ("ulvospinel", false, "Fe2TiO4");
  ("rhm-oxide", true, "");
  ("geikielite", false, "MgTiO3");
  ("hematite", false, "Fe2O3");
  ("ilmenite", false, "FeTiO3");
  ("pyrophanite", false, "MnTiO3");
  ("corundum", false, "Al2O3");
  ("ortho-oxide", true, "");
  ("pseudobrookite", false, "Fe2TiO5");
  ("ferropseudobrookite", false, "FeTi2O5");
  ("karrooite", false, "MgTi2O5");
  ("whitlockite", true, "Ca3(PO4)2");
  ("apatite", true, "Ca5(PO4)3OH");
  ("water", true, "H2O");
  ("fluid", true, "");
  ("h2oduan", false, "H2O");
  ("co2duan", false, "CO2");
  ("alloy-solid", true, "");
  ("Fe-metal", false, "Fe");
  ("Ni-metal", false, "Ni");
  ("alloy-liquid", true, "");
  ("Fe-liquid", false, "Fe");
  ("Ni-liquid", false, "Ni");
  ("lime", true, "CaO");
  ("periclase", true, "MgO");
  ("calcite", true, "CaCO3");
  ("aragonite", true, "CaCO3");
  ("magnesite", true, "MgCO3");
  ("siderite", true, "FeCO3");
  ("dolomite", true, "CaMg(CO3)2");
  ("spurrite", true, "Ca5Si2O8CO3");
  ("tilleyite", true, "Ca5Si2O7(CO3)2");
  ("diamond", true, "C");
  ("graphite", true, "C")
].

(** includes/sol_struct_data.h:2361-3717 *)
Definition tbl_meltsSolids : list (string * bool * string) := [
  ("olivine", true, "");
  ("tephroite", false, "Mn2SiO4");
  ("fayalite", false, "Fe2SiO4");
  ("co-olivine", false, "Co2SiO4");
  ("ni-olivine", false, "Ni2SiO4");
  ("monticellite", false, "CaMgSiO4");
  ("forsterite", false, "Mg2SiO4");
  ("fayalite", true, "Fe2SiO4");
  ("sphene", true, "CaTiSiO5");
  ("garnet", true, "");
  ("almandine", false, "Fe3Al2Si3O12");
  ("grossular", false, "Ca3Al2Si3O12");
  ("pyrope", false, "Mg3Al2Si3O12");
  ("melilite", true, "");
  ("akermanite", false, "Ca2MgSi2O7");
  ("gehlenite", false, "Ca2Al2SiO7");
  ("iron-akermanite", false, "Ca2FeSi2O7");
  ("soda-melilite", false, "Na2Si3O7");
  ("orthopyroxene", true, "");
  ("diopside", false, "CaMgSi2O6");
  ("clinoenstatite", false, "Mg2Si2O6");
  ("hedenbergite", false, "CaFeSi2O6");
  ("alumino-buffonite", false, "CaTi0.5Mg0.5AlSiO6");
  ("buffonite", false, "CaTi0.5Mg0.5FeSiO6");
  ("essenite", false, "CaFeAlSiO6");
  ("jadeite", false, "NaAlSi2O6");
  ("clinopyroxene", true, "");
  ("diopside", false, "CaMgSi2O6");
  ("clinoenstatite", false, "Mg2Si2O6");
  ("hedenbergite", false, "CaFeSi2O6");
  ("alumino-buffonite", false, "CaTi0.5Mg0.5AlSiO6");
  ("buffonite", false, "CaTi0.5Mg0.5FeSiO6");
  ("essenite", false, "CaFeAlSiO6");
  ("jadeite", false, "NaAlSi2O6");
  ("aegirine", true, "NaFeSi2O6");
  ("aenigmatite", true, "Na2Fe5TiSi6O20");
  ("cummingtonite", true, "");
  ("cummingtonite", false, "Mg7Si8O22(OH)2");
  ("grunerite", false, "Fe7Si8O22(OH)2");
  ("amphibole", true, "");
  ("cummingtonite", false, "Mg7Si8O22(OH)2");
  ("grunerite", false, "Fe7Si8O22(OH)2");
  ("tremolite", false, "Ca2Mg5Si8O22(OH)2");
  ("hornblende", true, "");
  ("pargasite", false, "NaCa2Mg4AlAl2Si6O22(OH)2");
  ("ferropargasite", false, "NaCa2Fe4AlAl2Si6O22(OH)2");
  ("magnesiohastingsite", false, "NaCa2Mg4FeAl2Si6O22(OH)2");
  ("biotite", true, "");
  ("annite", false, "KFe3Si3AlO10(OH)2");
  ("phlogopite", false, "KMg3Si3AlO10(OH)2");
  ("muscovite", true, "KAl2Si3AlO10(OH)2");
  ("feldspar", true, "");
  ("albite", false, "NaAlSi3O8");
  ("anorthite", false, "CaAl2Si2O8");
  ("sanidine", false, "KAlSi3O8");
  ("quartz", true, "SiO2");
  ("tridymite", true, "SiO2");
  ("cristobalite", true, "SiO2");
  ("nepheline", true, "");
  ("na-nepheline", false, "Na4Al4Si4O16");
  ("k-nepheline", false, "K4Al4Si4O16");
  ("vc-nepheline", false, "Na3Al3Si5O16");
  ("ca-nepheline", false, "CaNa2Al4Si4O16");
  ("kalsilite", true, "");
  ("na-nepheline", false, "Na4Al4Si4O16");
  ("k-nepheline", false, "K4Al4Si4O16");
  ("vc-nepheline", false, "Na3Al3Si5O16");
  ("ca-nepheline", false, "CaNa2Al4Si4O16");
  ("leucite", true, "");
  ("leucite", false, "KAlSi2O6");
  ("analcime", false, "NaAlSi2O5(OH)2");
  ("na-leucite", false, "NaAlSi2O6");
  ("corundum", true, "Al2O3");
  ("sillimanite", true, "Al2SiO5");
  ("rutile", true, "TiO2");
  ("perovskite", true, "CaTiO3");
  ("spinel", true, "");
  ("chromite", false, "FeCr2O4");
  ("hercynite", false, "FeAl2O4");
  ("magnetite", false, "Fe3O4");
  ("spinel", false, "MgAl2O4");
  ("ulvospinel", false, "Fe2TiO4");
  ("rhm-oxide", true, "");
  ("geikielite", false, "MgTiO3");
  ("hematite", false, "Fe2O3");
  ("ilmenite", false, "FeTiO3");
  ("pyrophanite", false, "MnTiO3");
  ("corundum", false, "Al2O3");
  ("ortho-oxide", true, "");
  ("pseudobrookite", false, "Fe2TiO5");
  ("ferropseudobrookite", false, "FeTi2O5");
  ("karrooite", false, "MgTi2O5");
  ("whitlockite", true, "Ca3(PO4)2");
  ("apatite", true, "Ca5(PO4)3OH");
  ("water", true, "H2O");
  ("alloy-solid", true, "");
  ("Fe-metal", false, "Fe");
  ("Ni-metal", false, "Ni");
  ("alloy-liquid", true, "");
  ("Fe-liquid", false, "Fe");
  ("Ni-liquid", false, "Ni")
].

(** includes/sol_struct_data.h:3720-5201 *)
Definition tbl_meltsFluidSolids : list (string * bool * string) := [
  ("olivine", true, "");
  ("tephroite", false, "Mn2SiO4");
  ("fayalite", false, "Fe2SiO4");
  ("co-olivine", false, "Co2SiO4");
  ("ni-olivine", false, "Ni2SiO4");
  ("monticellite", false, "CaMgSiO4");
  ("forsterite", false, "Mg2SiO4");
  ("fayalite", true, "Fe2SiO4");
  ("sphene", true, "CaTiSiO5");
  ("garnet", true, "");
  ("almandine", false, "Fe3Al2Si3O12");
  ("grossular", false, "Ca3Al2Si3O12");
  ("pyrope", false, "Mg3Al2Si3O12");
  ("melilite", true, "");
  ("akermanite", false, "Ca2MgSi2O7");
  ("gehlenite", false, "Ca2Al2SiO7");
  ("iron-akermanite", false, "Ca2FeSi2O7");
  ("soda-melilite", false, "Na2Si3O7");
  ("orthopyroxene", true, "");
  ("diopside", false, "CaMgSi2O6");
  ("clinoenstatite", false, "Mg2Si2O6");
  ("hedenbergite", false, "CaFeSi2O6");
  ("alumino-buffonite", false, "CaTi0.5Mg0.5AlSiO6");
  ("buffonite", false, "CaTi0.5Mg0.5FeSiO6");
  ("essenite", false, "CaFeAlSiO6");
  ("jadeite", false, "NaAlSi2O6");
  ("clinopyroxene", true, "");
  ("diopside", false, "CaMgSi2O6");
  ("clinoenstatite", false, "Mg2Si2O6");
  ("hedenbergite", false, "CaFeSi2O6");
  ("alumino-buffonite", false, "CaTi0.5Mg0.5AlSiO6");
  ("buffonite", false, "CaTi0.5Mg0.5FeSiO6");
  ("essenite", false, "CaFeAlSiO6");
  ("jadeite", false, "NaAlSi2O6");
  ("aegirine", true, "NaFeSi2O6");
  ("aenigmatite", true, "Na2Fe5TiSi6O20");
  ("cummingtonite", true, "");
  ("cummingtonite", false, "Mg7Si8O22(OH)2");
  ("grunerite", false, "Fe7Si8O22(OH)2");
  ("amphibole", true, "");
  ("cummingtonite", false, "Mg7Si8O22(OH)2");
  ("grunerite", false, "Fe7Si8O22(OH)2");
  ("tremolite", false, "Ca2Mg5Si8O22(OH)2");
  ("hornblende", true, "");
  ("pargasite", false, "NaCa2Mg4AlAl2Si6O22(OH)2");
  ("ferropargasite", false, "NaCa2Fe4AlAl2Si6O22(OH)2");
  ("magnesiohastingsite", false, "NaCa2Mg4FeAl2Si6O22(OH)2");
  ("biotite", true, "");
  ("annite", false, "KFe3Si3AlO10(OH)2");
  ("phlogopite", false, "KMg3Si3AlO10(OH)2");
  ("muscovite", true, "KAl2Si3AlO10(OH)2");
  ("feldspar", true, "");
  ("albite", false, "NaAlSi3O8");
  ("anorthite", false, "CaAl2Si2O8");
  ("sanidine", false, "KAlSi3O8");
  ("quartz", true, "SiO2");
  ("tridymite", true, "SiO2");
  ("cristobalite", true, "SiO2");
  ("nepheline", true, "");
  ("na-nepheline", false, "Na4Al4Si4O16");
  ("k-nepheline", false, "K4Al4Si4O16");
  ("vc-nepheline", false, "Na3Al3Si5O16");
  ("ca-nepheline", false, "CaNa2Al4Si4O16");
  ("kalsilite", true, "");
  ("na-nepheline", false, "Na4Al4Si4O16");
  ("k-nepheline", false, "K4Al4Si4O16");
  ("vc-nepheline", false, "Na3Al3Si5O16");
  ("ca-nepheline", false, "CaNa2Al4Si4O16");
  ("leucite", true, "");
  ("leucite", false, "KAlSi2O6");
  ("analcime", false, "NaAlSi2O5(OH)2");
  ("na-leucite", false, "NaAlSi2O6");
  ("corundum", true, "Al2O3");
  ("sillimanite", true, "Al2SiO5");
  ("rutile", true, "TiO2");
  ("perovskite", true, "CaTiO3");
  ("spinel", true, "");
  ("chromite", false, "FeCr2O4");
  ("hercynite", false, "FeAl2O4");
  ("magnetite", false, "Fe3O4");
  ("spinel", false, "MgAl2O4");
  ("ulvospinel", false, "Fe2TiO4");
  ("rhm-oxide", true, "");
  ("geikielite", false, "MgTiO3");
  ("hematite", false, "Fe2O3");
  ("ilmenite", false, "FeTiO3");
  ("pyrophanite", false, "MnTiO3");
  ("corundum", false, "Al2O3");
  ("ortho-oxide", true, "");
  ("pseudobrookite", false, "Fe2TiO5");
  ("ferropseudobrookite", false, "FeTi2O5");
  ("karrooite", false, "MgTi2O5");
  ("whitlockite", true, "Ca3(PO4)2");
  ("apatite", true, "Ca5(PO4)3OH");
  ("fluid", true, "");
  ("h2oduan", false, "H2O");
  ("co2duan", false, "CO2");
  ("alloy-solid", true, "");
  ("Fe-metal", false, "Fe");
  ("Ni-metal", false, "Ni");
  ("alloy-liquid", true, "");
  ("Fe-liquid", false, "Fe");
  ("Ni-liquid", false, "Ni");
  ("calcite", true, "CaCO3");
  ("aragonite", true, "CaCO3");
  ("magnesite", true, "MgCO3");
  ("siderite", true, "FeCO3");
  ("dolomite", true, "CaMg(CO3)2");
  ("spurrite", true, "Ca5Si2O8CO3");
  ("tilleyite", true, "Ca5Si2O7(CO3)2");
  ("diamond", true, "C");
  ("graphite", true, "C")
].

(** includes/sol_struct_data.h:5204-6464 *)
Definition tbl_pMeltsSolids : list (string * bool * string) := [
  ("olivine", true, "");
  ("tephroite", false, "Mn2SiO4");
  ("fayalite", false, "Fe2SiO4");
  ("co-olivine", false, "Co2SiO4");
  ("ni-olivine", false, "Ni2SiO4");
  ("monticellite", false, "CaMgSiO4");
  ("forsterite", false, "Mg2SiO4");
  ("sphene", true, "CaTiSiO5");
  ("garnet", true, "");
  ("almandine", false, "Fe3Al2Si3O12");
  ("grossular", false, "Ca3Al2Si3O12");
  ("pyrope", false, "Mg3Al2Si3O12");
  ("melilite", true, "");
  ("akermanite", false, "Ca2MgSi2O7");
  ("gehlenite", false, "Ca2Al2SiO7");
  ("iron-akermanite", false, "Ca2FeSi2O7");
  ("soda-melilite", false, "Na2Si3O7");
  ("orthopyroxene", true, "");
  ("diopside", false, "CaMgSi2O6");
  ("clinoenstatite", false, "Mg2Si2O6");
  ("hedenbergite", false, "CaFeSi2O6");
  ("alumino-buffonite", false, "CaTi0.5Mg0.5AlSiO6");
  ("buffonite", false, "CaTi0.5Mg0.5FeSiO6");
  ("essenite", false, "CaFeAlSiO6");
  ("jadeite", false, "NaAlSi2O6");
  ("clinopyroxene", true, "");
  ("diopside", false, "CaMgSi2O6");
  ("clinoenstatite", false, "Mg2Si2O6");
  ("hedenbergite", false, "CaFeSi2O6");
  ("alumino-buffonite", false, "CaTi0.5Mg0.5AlSiO6");
  ("buffonite", false, "CaTi0.5Mg0.5FeSiO6");
  ("essenite", false, "CaFeAlSiO6");
  ("jadeite", false, "NaAlSi2O6");
  ("aegirine", true, "NaFeSi2O6");
  ("aenigmatite", true, "Na2Fe5TiSi6O20");
  ("cummingtonite", true, "");
  ("cummingtonite", false, "Mg7Si8O22(OH)2");
  ("grunerite", false, "Fe7Si8O22(OH)2");
  ("amphibole", true, "");
  ("cummingtonite", false, "Mg7Si8O22(OH)2");
  ("grunerite", false, "Fe7Si8O22(OH)2");
  ("tremolite", false, "Ca2Mg5Si8O22(OH)2");
  ("hornblende", true, "");
  ("pargasite", false, "NaCa2Mg4AlAl2Si6O22(OH)2");
  ("ferropargasite", false, "NaCa2Fe4AlAl2Si6O22(OH)2");
  ("magnesiohastingsite", false, "NaCa2Mg4FeAl2Si6O22(OH)2");
  ("biotite", true, "");
  ("annite", false, "KFe3Si3AlO10(OH)2");
  ("phlogopite", false, "KMg3Si3AlO10(OH)2");
  ("muscovite", true, "KAl2Si3AlO10(OH)2");
  ("feldspar", true, "");
  ("albite", false, "NaAlSi3O8");
  ("anorthite", false, "CaAl2Si2O8");
  ("sanidine", false, "KAlSi3O8");
  ("quartz", true, "SiO2");
  ("tridymite", true, "SiO2");
  ("cristobalite", true, "SiO2");
  ("nepheline", true, "");
  ("na-nepheline", false, "Na4Al4Si4O16");
  ("k-nepheline", false, "K4Al4Si4O16");
  ("vc-nepheline", false, "Na3Al3Si5O16");
  ("ca-nepheline", false, "CaNa2Al4Si4O16");
  ("kalsilite", true, "");
  ("na-nepheline", false, "Na4Al4Si4O16");
  ("k-nepheline", false, "K4Al4Si4O16");
  ("vc-nepheline", false, "Na3Al3Si5O16");
  ("ca-nepheline", false, "CaNa2Al4Si4O16");
  ("leucite", true, "");
  ("leucite", false, "KAlSi2O6");
  ("analcime", false, "NaAlSi2O5(OH)2");
  ("na-leucite", false, "NaAlSi2O6");
  ("corundum", true, "Al2O3");
  ("rutile", true, "TiO2");
  ("perovskite", true, "CaTiO3");
  ("spinel", true, "");
  ("chromite", false, "FeCr2O4");
  ("hercynite", false, "FeAl2O4");
  ("magnetite", false, "Fe3O4");
  ("spinel", false, "MgAl2O4");
  ("ulvospinel", false, "Fe2TiO4");
  ("rhm-oxide", true, "");
  ("geikielite", false, "MgTiO3");
  ("hematite", false, "Fe2O3");
  ("ilmenite", false, "FeTiO3");
  ("pyrophanite", false, "MnTiO3");
  ("ortho-oxide", true, "");
  ("pseudobrookite", false, "Fe2TiO5");
  ("ferropseudobrookite", false, "FeTi2O5");
  ("karrooite", false, "MgTi2O5");
  ("whitlockite", true, "Ca3(PO4)2");
  ("apatite", true, "Ca5(PO4)3OH");
  ("water", true, "H2O");
  ("alloy-solid", true, "");
  ("Fe-metal", false, "Fe");
  ("Ni-metal", false, "Ni");
  ("alloy-liquid", true, "");
  ("Fe-liquid", false, "Fe");
  ("Ni-liquid", false, "Ni")
].

(** includes/liq_struct_data.h:174-196: bulkSystem[i].label for i < nc *)
Definition tbl_bulk : list string := ["SiO2"; "TiO2"; "Al2O3"; "Fe2O3"; "Cr2O3"; "FeO"; "MnO"; "MgO"; "NiO"; "CoO"; "CaO"; "Na2O"; "K2O"; "P2O5"; "H2O"; "CO2"; "SO3"; "Cl2O-1"; "F2O-1"].

(** includes/liq_struct_data.h:198-519 *)
Definition tbl_xMeltsLiquid : list string := ["SiO2"; "TiO2"; "Al2O3"; "Fe2O3"; "MgCr2O4"; "Fe2SiO4"; "MnSi0.5O2"; "Mg2SiO4"; "NiSi0.5O2"; "CoSi0.5O2"; "CaSiO3"; "Na2SiO3"; "KAlSiO4"; "Ca3(PO4)2"; "CO2"; "SO3"; "Cl2O-1"; "F2O-1"; "H2O"; "CaCO3"].

(** includes/liq_struct_data.h:525-830 *)
Definition tbl_meltsLiquid : list string := ["SiO2"; "TiO2"; "Al2O3"; "Fe2O3"; "MgCr2O4"; "Fe2SiO4"; "MnSi0.5O2"; "Mg2SiO4"; "NiSi0.5O2"; "CoSi0.5O2"; "CaSiO3"; "Na2SiO3"; "KAlSiO4"; "Ca3(PO4)2"; "CO2"; "SO3"; "Cl2O-1"; "F2O-1"; "H2O"].

(** includes/liq_struct_data.h:835-1156 *)
Definition tbl_meltsFluidLiquid : list string := ["SiO2"; "TiO2"; "Al2O3"; "Fe2O3"; "MgCr2O4"; "Fe2SiO4"; "MnSi0.5O2"; "Mg2SiO4"; "NiSi0.5O2"; "CoSi0.5O2"; "CaSiO3"; "Na2SiO3"; "KAlSiO4"; "Ca3(PO4)2"; "CO2"; "SO3"; "Cl2O-1"; "F2O-1"; "H2O"; "CaCO3"].

(** includes/liq_struct_data.h:1221-1538 *)
Definition tbl_pMeltsLiquid : list string := ["Si4O8"; "TiO2"; "Al4O6"; "Fe2O3"; "MgCr2O4"; "Fe2SiO4"; "MnSi0.5O2"; "Mg2SiO4"; "NiSi0.5O2"; "CoSi0.5O2"; "Ca2Si2O6"; "NaSi0.5O1.5"; "KAlSiO4"; "Ca3(PO4)2"; "CO2"; "SO3"; "Cl2O-1"; "F2O-1"; "H2O"].
