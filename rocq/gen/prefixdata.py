#!/usr/bin/env python3
"""Writes theories/PrefixData.v: the gunzipped prefix blobs of /repo that the model is evaluated on."""
import gzip, sys
repo, out = sys.argv[1], sys.argv[2]
blobs = [("shipped_tz_blob", "timezone/data/prefix_to_timezone.xml.gz"),
         ("carrier_ko_blob", "carrier/data/ko.txt.gz"),
         ("carrier_ar_blob", "carrier/data/ar.txt.gz"),
         ("geocoding_ko_blob", "geocoding/data/ko.txt.gz")]
w = ["(** Generated by gen/prefixdata.py: gunzipped prefix tables of the repository. No proofs here. *)",
     "From Verif Require Import Base.", ""]
for name, path in blobs:
    data = gzip.open(f"{repo}/{path}").read()
    w.append(f"(** {path} *)")
    w.append(f"Definition {name} : bytes :=")
    w.append("  [" + ";".join(map(str, data)) + "].")
    w.append("")
open(out, "w").write("\n".join(w))
