(** Generated by gen/prefixdata.py: gunzipped prefix tables of the repository. No proofs here. *)
From Verif Require Import Base.

(** timezone/data/prefix_to_timezone.xml.gz *)
Definition shipped_tz_blob : bytes :=
  [98;17;0;0;65;102;114;105;99;97;47;65;98;105;100;106;97;110;10;65;102;114;105;99;97;47;65;99;99;114;97;10;65;102;114;105;99;97;47;65;100;100;105;115;95;65;98;97;98;97;10;65;102;114;105;99;97;47;65;115;109;101;114;97;10;65;102;114;105;99;97;47;66;97;109;97;107;111;10;65;102;114;105;99;97;47;66;97;110;103;117;105;10;65;102;114;105;99;97;47;66;97;110;106;117;108;10;65;102;114;105;99;97;47;66;108;97;110;116;121;114;101;10;65;102;114;105;99;97;47;66;114;97;122;122;97;118;105;108;108;101;10;65;102;114;105;99;97;47;66;117;106;117;109;98;117;114;97;10;65;102;114;105;99;97;47;67;97;105;114;111;10;65;102;114;105;99;97;47;67;111;110;97;107;114;121;10;65;102;114;105;99;97;47;68;97;107;97;114;10;65;102;114;105;99;97;47;68;97;114;95;101;115;95;83;97;108;97;97;109;10;65;102;114;105;99;97;47;68;106;105;98;111;117;116;105;10;65;102;114;105;99;97;47;68;111;117;97;108;97;10;65;102;114;105;99;97;47;70;114;101;101;116;111;119;110;10;65;102;114;105;99;97;47;71;97;98;111;114;111;110;101;10;65;102;114;105;99;97;47;72;97;114;97;114;101;10;65;102;114;105;99;97;47;74;111;104;97;110;110;101;115;98;117;114;103;10;65;102;114;105;99;97;47;75;97;109;112;97;108;97;10;65;102;114;105;99;97;47;75;104;97;114;116;111;117;109;10;65;102;114;105;99;97;47;75;105;103;97;108;105;10;65;102;114;105;99;97;47;75;105;110;115;104;97;115;97;10;65;102;114;105;99;97;47;76;97;103;111;115;10;65;102;114;105;99;97;47;76;105;98;114;101;118;105;108;108;101;10;65;102;114;105;99;97;47;76;111;109;101;10;65;102;114;105;99;97;47;76;117;97;110;100;97;10;65;102;114;105;99;97;47;76;117;98;117;109;98;97;115;104;105;10;65;102;114;105;99;97;47;76;117;115;97;107;97;10;65;102;114;105;99;97;47;77;97;108;97;98;111;10;65;102;114;105;99;97;47;77;97;112;117;116;111;10;65;102;114;105;99;97;47;77;97;115;101;114;117;10;65;102;114;105;99;97;47;77;98;97;98;97;110;101;10;65;102;114;105;99;97;47;77;111;103;97;100;105;115;104;117;10;65;102;114;105;99;97;47;78;97;105;114;111;98;105;10;65;102;114;105;99;97;47;78;100;106;97;109;101;110;97;10;65;102;114;105;99;97;47;78;105;97;109;101;121;10;65;102;114;105;99;97;47;78;111;117;97;107;99;104;111;116;116;10;65;102;114;105;99;97;47;79;117;97;103;97;100;111;117;103;111;117;10;65;102;114;105;99;97;47;80;111;114;116;111;45;78;111;118;111;10;65;102;114;105;99;97;47;83;97;111;95;84;111;109;101;10;65;102;114;105;99;97;47;84;117;110;105;115;10;65;102;114;105;99;97;47;87;105;110;100;104;111;101;107;10;65;109;101;114;105;99;97;47;65;100;97;107;10;65;109;101;114;105;99;97;47;65;110;99;104;111;114;97;103;101;10;65;109;101;114;105;99;97;47;65;110;103;117;105;108;108;97;10;65;109;101;114;105;99;97;47;65;110;116;105;103;117;97;10;65;109;101;114;105;99;97;47;65;114;117;98;97;10;65;109;101;114;105;99;97;47;65;115;117;110;99;105;111;110;10;65;109;101;114;105;99;97;47;66;97;114;98;97;100;111;115;10;65;109;101;114;105;99;97;47;66;101;108;105;122;101;10;65;109;101;114;105;99;97;47;66;111;103;111;116;97;10;65;109;101;114;105;99;97;47;66;111;105;115;101;10;65;109;101;114;105;99;97;47;66;117;101;110;111;115;95;65;105;114;101;115;10;65;109;101;114;105;99;97;47;67;97;110;99;117;110;10;65;109;101;114;105;99;97;47;67;97;114;97;99;97;115;10;65;109;101;114;105;99;97;47;67;97;121;101;110;110;101;10;65;109;101;114;105;99;97;47;67;97;121;109;97;110;10;65;109;101;114;105;99;97;47;67;104;105;99;97;103;111;10;65;109;101;114;105;99;97;47;67;105;117;100;97;100;95;74;117;97;114;101;122;10;65;109;101;114;105;99;97;47;67;111;115;116;97;95;82;105;99;97;10;65;109;101;114;105;99;97;47;67;117;114;97;99;97;111;10;65;109;101;114;105;99;97;47;68;101;110;118;101;114;10;65;109;101;114;105;99;97;47;68;111;109;105;110;105;99;97;10;65;109;101;114;105;99;97;47;69;100;109;111;110;116;111;110;10;65;109;101;114;105;99;97;47;69;108;95;83;97;108;118;97;100;111;114;10;65;109;101;114;105;99;97;47;70;111;114;116;95;78;101;108;115;111;110;10;65;109;101;114;105;99;97;47;71;111;100;116;104;97;98;10;65;109;101;114;105;99;97;47;71;114;97;110;100;95;84;117;114;107;10;65;109;101;114;105;99;97;47;71;114;101;110;97;100;97;10;65;109;101;114;105;99;97;47;71;117;97;100;101;108;111;117;112;101;10;65;109;101;114;105;99;97;47;71;117;97;116;101;109;97;108;97;10;65;109;101;114;105;99;97;47;71;117;97;121;97;113;117;105;108;10;65;109;101;114;105;99;97;47;71;117;121;97;110;97;10;65;109;101;114;105;99;97;47;72;97;108;105;102;97;120;10;65;109;101;114;105;99;97;47;72;97;118;97;110;97;10;65;109;101;114;105;99;97;47;74;97;109;97;105;99;97;10;65;109;101;114;105;99;97;47;74;117;110;101;97;117;10;65;109;101;114;105;99;97;47;75;114;97;108;101;110;100;105;106;107;10;65;109;101;114;105;99;97;47;76;97;95;80;97;122;10;65;109;101;114;105;99;97;47;76;105;109;97;10;65;109;101;114;105;99;97;47;76;111;115;95;65;110;103;101;108;101;115;10;65;109;101;114;105;99;97;47;76;111;119;101;114;95;80;114;105;110;99;101;115;10;65;109;101;114;105;99;97;47;77;97;110;97;117;115;10;65;109;101;114;105;99;97;47;77;97;114;116;105;110;105;113;117;101;10;65;109;101;114;105;99;97;47;77;97;116;97;109;111;114;111;115;10;65;109;101;114;105;99;97;47;77;97;122;97;116;108;97;110;10;65;109;101;114;105;99;97;47;77;101;120;105;99;111;95;67;105;116;121;10;65;109;101;114;105;99;97;47;77;105;113;117;101;108;111;110;10;65;109;101;114;105;99;97;47;77;111;110;116;101;118;105;100;101;111;10;65;109;101;114;105;99;97;47;77;111;110;116;115;101;114;114;97;116;10;65;109;101;114;105;99;97;47;78;97;115;115;97;117;10;65;109;101;114;105;99;97;47;78;101;119;95;89;111;114;107;10;65;109;101;114;105;99;97;47;78;111;114;111;110;104;97;10;65;109;101;114;105;99;97;47;78;111;114;116;104;95;68;97;107;111;116;97;47;67;101;110;116;101;114;10;65;109;101;114;105;99;97;47;79;106;105;110;97;103;97;10;65;109;101;114;105;99;97;47;80;97;110;97;109;97;10;65;109;101;114;105;99;97;47;80;97;114;97;109;97;114;105;98;111;10;65;109;101;114;105;99;97;47;80;104;111;101;110;105;120;10;65;109;101;114;105;99;97;47;80;111;114;116;45;97;117;45;80;114;105;110;99;101;10;65;109;101;114;105;99;97;47;80;111;114;116;95;111;102;95;83;112;97;105;110;10;65;109;101;114;105;99;97;47;80;117;101;114;116;111;95;82;105;99;111;10;65;109;101;114;105;99;97;47;82;101;103;105;110;97;10;65;109;101;114;105;99;97;47;82;105;111;95;66;114;97;110;99;111;10;65;109;101;114;105;99;97;47;83;97;110;116;105;97;103;111;10;65;109;101;114;105;99;97;47;83;97;110;116;111;95;68;111;109;105;110;103;111;10;65;109;101;114;105;99;97;47;83;97;111;95;80;97;117;108;111;10;65;109;101;114;105;99;97;47;83;99;111;114;101;115;98;121;115;117;110;100;10;65;109;101;114;105;99;97;47;83;116;95;74;111;104;110;115;10;65;109;101;114;105;99;97;47;83;116;95;75;105;116;116;115;10;65;109;101;114;105;99;97;47;83;116;95;76;117;99;105;97;10;65;109;101;114;105;99;97;47;83;116;95;84;104;111;109;97;115;10;65;109;101;114;105;99;97;47;83;116;95;86;105;110;99;101;110;116;10;65;109;101;114;105;99;97;47;84;101;103;117;99;105;103;97;108;112;97;10;65;109;101;114;105;99;97;47;84;104;117;108;101;10;65;109;101;114;105;99;97;47;84;105;106;117;97;110;97;10;65;109;101;114;105;99;97;47;84;111;114;111;110;116;111;10;65;109;101;114;105;99;97;47;84;111;114;116;111;108;97;10;65;109;101;114;105;99;97;47;86;97;110;99;111;117;118;101;114;10;65;109;101;114;105;99;97;47;87;105;110;110;105;112;101;103;10;65;114;99;116;105;99;47;76;111;110;103;121;101;97;114;98;121;101;110;10;65;115;105;97;47;65;100;101;110;10;65;115;105;97;47;65;108;109;97;116;121;10;65;115;105;97;47;65;109;109;97;110;10;65;115;105;97;47;65;110;97;100;121;114;10;65;115;105;97;47;65;113;116;111;98;101;10;65;115;105;97;47;65;115;104;103;97;98;97;116;10;65;115;105;97;47;66;97;103;104;100;97;100;10;65;115;105;97;47;66;97;104;114;97;105;110;10;65;115;105;97;47;66;97;107;117;10;65;115;105;97;47;66;97;110;103;107;111;107;10;65;115;105;97;47;66;101;105;114;117;116;10;65;115;105;97;47;66;105;115;104;107;101;107;10;65;115;105;97;47;66;114;117;110;101;105;10;65;115;105;97;47;67;97;108;99;117;116;116;97;10;65;115;105;97;47;67;104;111;105;98;97;108;115;97;110;10;65;115;105;97;47;67;111;108;111;109;98;111;10;65;115;105;97;47;68;97;109;97;115;99;117;115;10;65;115;105;97;47;68;104;97;107;97;10;65;115;105;97;47;68;105;108;105;10;65;115;105;97;47;68;117;98;97;105;10;65;115;105;97;47;68;117;115;104;97;110;98;101;10;65;115;105;97;47;72;111;95;67;104;105;95;77;105;110;104;10;65;115;105;97;47;72;111;110;103;95;75;111;110;103;10;65;115;105;97;47;72;111;118;100;10;65;115;105;97;47;73;114;107;117;116;115;107;10;65;115;105;97;47;74;97;107;97;114;116;97;10;65;115;105;97;47;74;97;121;97;112;117;114;97;10;65;115;105;97;47;74;101;114;117;115;97;108;101;109;10;65;115;105;97;47;75;97;98;117;108;10;65;115;105;97;47;75;97;109;99;104;97;116;107;97;10;65;115;105;97;47;75;97;114;97;99;104;105;10;65;115;105;97;47;75;97;116;109;97;110;100;117;10;65;115;105;97;47;75;114;97;115;110;111;121;97;114;115;107;10;65;115;105;97;47;75;117;99;104;105;110;103;10;65;115;105;97;47;75;117;119;97;105;116;10;65;115;105;97;47;77;97;103;97;100;97;110;10;65;115;105;97;47;77;97;107;97;115;115;97;114;10;65;115;105;97;47;77;97;110;105;108;97;10;65;115;105;97;47;77;117;115;99;97;116;10;65;115;105;97;47;78;105;99;111;115;105;97;10;65;115;105;97;47;78;111;118;111;115;105;98;105;114;115;107;10;65;115;105;97;47;79;109;115;107;10;65;115;105;97;47;80;104;110;111;109;95;80;101;110;104;10;65;115;105;97;47;81;97;116;97;114;10;65;115;105;97;47;82;97;110;103;111;111;110;10;65;115;105;97;47;82;105;121;97;100;104;10;65;115;105;97;47;83;97;107;104;97;108;105;110;10;65;115;105;97;47;83;101;111;117;108;10;65;115;105;97;47;83;104;97;110;103;104;97;105;10;65;115;105;97;47;83;105;110;103;97;112;111;114;101;10;65;115;105;97;47;84;97;105;112;101;105;10;65;115;105;97;47;84;97;115;104;107;101;110;116;10;65;115;105;97;47;84;98;105;108;105;115;105;10;65;115;105;97;47;84;101;104;114;97;110;10;65;115;105;97;47;84;104;105;109;112;104;117;10;65;115;105;97;47;84;111;107;121;111;10;65;115;105;97;47;85;108;97;97;110;98;97;97;116;97;114;10;65;115;105;97;47;86;105;101;110;116;105;97;110;101;10;65;115;105;97;47;86;108;97;100;105;118;111;115;116;111;107;10;65;115;105;97;47;89;97;107;117;116;115;107;10;65;115;105;97;47;89;101;107;97;116;101;114;105;110;98;117;114;103;10;65;115;105;97;47;89;101;114;101;118;97;110;10;65;116;108;97;110;116;105;99;47;65;122;111;114;101;115;10;65;116;108;97;110;116;105;99;47;66;101;114;109;117;100;97;10;65;116;108;97;110;116;105;99;47;67;97;110;97;114;121;10;65;116;108;97;110;116;105;99;47;67;97;112;101;95;86;101;114;100;101;10;65;116;108;97;110;116;105;99;47;70;97;101;114;111;101;10;65;116;108;97;110;116;105;99;47;82;101;121;107;106;97;118;105;107;10;65;116;108;97;110;116;105;99;47;83;116;95;72;101;108;101;110;97;10;65;116;108;97;110;116;105;99;47;83;116;97;110;108;101;121;10;65;117;115;116;114;97;108;105;97;47;65;100;101;108;97;105;100;101;10;65;117;115;116;114;97;108;105;97;47;66;114;105;115;98;97;110;101;10;65;117;115;116;114;97;108;105;97;47;69;117;99;108;97;10;65;117;115;116;114;97;108;105;97;47;76;111;114;100;95;72;111;119;101;10;65;117;115;116;114;97;108;105;97;47;80;101;114;116;104;10;65;117;115;116;114;97;108;105;97;47;83;121;100;110;101;121;10;69;117;114;111;112;101;47;65;109;115;116;101;114;100;97;109;10;69;117;114;111;112;101;47;65;110;100;111;114;114;97;10;69;117;114;111;112;101;47;65;116;104;101;110;115;10;69;117;114;111;112;101;47;66;101;108;103;114;97;100;101;10;69;117;114;111;112;101;47;66;101;114;108;105;110;10;69;117;114;111;112;101;47;66;114;97;116;105;115;108;97;118;97;10;69;117;114;111;112;101;47;66;114;117;115;115;101;108;115;10;69;117;114;111;112;101;47;66;117;99;104;97;114;101;115;116;10;69;117;114;111;112;101;47;66;117;100;97;112;101;115;116;10;69;117;114;111;112;101;47;67;104;105;115;105;110;97;117;10;69;117;114;111;112;101;47;67;111;112;101;110;104;97;103;101;110;10;69;117;114;111;112;101;47;71;105;98;114;97;108;116;97;114;10;69;117;114;111;112;101;47;71;117;101;114;110;115;101;121;10;69;117;114;111;112;101;47;72;101;108;115;105;110;107;105;10;69;117;114;111;112;101;47;73;115;108;101;95;111;102;95;77;97;110;10;69;117;114;111;112;101;47;73;115;116;97;110;98;117;108;10;69;117;114;111;112;101;47;74;101;114;115;101;121;10;69;117;114;111;112;101;47;75;121;105;118;10;69;117;114;111;112;101;47;76;105;115;98;111;110;10;69;117;114;111;112;101;47;76;106;117;98;108;106;97;110;97;10;69;117;114;111;112;101;47;76;111;110;100;111;110;10;69;117;114;111;112;101;47;76;117;120;101;109;98;111;117;114;103;10;69;117;114;111;112;101;47;77;97;100;114;105;100;10;69;117;114;111;112;101;47;77;97;108;116;97;10;69;117;114;111;112;101;47;77;97;114;105;101;104;97;109;110;10;69;117;114;111;112;101;47;77;111;110;97;99;111;10;69;117;114;111;112;101;47;77;111;115;99;111;119;10;69;117;114;111;112;101;47;79;115;108;111;10;69;117;114;111;112;101;47;80;97;114;105;115;10;69;117;114;111;112;101;47;80;111;100;103;111;114;105;99;97;10;69;117;114;111;112;101;47;80;114;97;103;117;101;10;69;117;114;111;112;101;47;82;111;109;101;10;69;117;114;111;112;101;47;83;97;109;97;114;97;10;69;117;114;111;112;101;47;83;97;110;95;77;97;114;105;110;111;10;69;117;114;111;112;101;47;83;97;114;97;106;101;118;111;10;69;117;114;111;112;101;47;83;107;111;112;106;101;10;69;117;114;111;112;101;47;83;111;102;105;97;10;69;117;114;111;112;101;47;83;116;111;99;107;104;111;108;109;10;69;117;114;111;112;101;47;84;105;114;97;110;101;10;69;117;114;111;112;101;47;86;97;100;117;122;10;69;117;114;111;112;101;47;86;97;116;105;99;97;110;10;69;117;114;111;112;101;47;86;105;101;110;110;97;10;69;117;114;111;112;101;47;87;97;114;115;97;119;10;69;117;114;111;112;101;47;90;97;103;114;101;98;10;69;117;114;111;112;101;47;90;117;114;105;99;104;10;73;110;100;105;97;110;47;65;110;116;97;110;97;110;97;114;105;118;111;10;73;110;100;105;97;110;47;67;104;97;103;111;115;10;73;110;100;105;97;110;47;67;104;114;105;115;116;109;97;115;10;73;110;100;105;97;110;47;67;111;99;111;115;10;73;110;100;105;97;110;47;67;111;109;111;114;111;10;73;110;100;105;97;110;47;77;97;104;101;10;73;110;100;105;97;110;47;77;97;108;100;105;118;101;115;10;73;110;100;105;97;110;47;77;97;117;114;105;116;105;117;115;10;73;110;100;105;97;110;47;77;97;121;111;116;116;101;10;73;110;100;105;97;110;47;82;101;117;110;105;111;110;10;80;97;99;105;102;105;99;47;65;112;105;97;10;80;97;99;105;102;105;99;47;65;117;99;107;108;97;110;100;10;80;97;99;105;102;105;99;47;67;104;97;116;104;97;109;10;80;97;99;105;102;105;99;47;69;102;97;116;101;10;80;97;99;105;102;105;99;47;69;110;100;101;114;98;117;114;121;10;80;97;99;105;102;105;99;47;70;97;107;97;111;102;111;10;80;97;99;105;102;105;99;47;70;105;106;105;10;80;97;99;105;102;105;99;47;70;117;110;97;102;117;116;105;10;80;97;99;105;102;105;99;47;71;97;108;97;112;97;103;111;115;10;80;97;99;105;102;105;99;47;71;97;109;98;105;101;114;10;80;97;99;105;102;105;99;47;71;117;97;100;97;108;99;97;110;97;108;10;80;97;99;105;102;105;99;47;71;117;97;109;10;80;97;99;105;102;105;99;47;72;111;110;111;108;117;108;117;10;80;97;99;105;102;105;99;47;75;105;114;105;116;105;109;97;116;105;10;80;97;99;105;102;105;99;47;75;111;115;114;97;101;10;80;97;99;105;102;105;99;47;77;97;106;117;114;111;10;80;97;99;105;102;105;99;47;77;97;114;113;117;101;115;97;115;10;80;97;99;105;102;105;99;47;78;97;117;114;117;10;80;97;99;105;102;105;99;47;78;105;117;101;10;80;97;99;105;102;105;99;47;78;111;114;102;111;108;107;10;80;97;99;105;102;105;99;47;78;111;117;109;101;97;10;80;97;99;105;102;105;99;47;80;97;103;111;95;80;97;103;111;10;80;97;99;105;102;105;99;47;80;97;108;97;117;10;80;97;99;105;102;105;99;47;80;111;110;97;112;101;10;80;97;99;105;102;105;99;47;80;111;114;116;95;77;111;114;101;115;98;121;10;80;97;99;105;102;105;99;47;82;97;114;111;116;111;110;103;97;10;80;97;99;105;102;105;99;47;83;97;105;112;97;110;10;80;97;99;105;102;105;99;47;84;97;104;105;116;105;10;80;97;99;105;102;105;99;47;84;97;114;97;119;97;10;80;97;99;105;102;105;99;47;84;111;110;103;97;116;97;112;117;10;80;97;99;105;102;105;99;47;84;114;117;107;10;80;97;99;105;102;105;99;47;87;97;108;108;105;115;218;12;0;0;1;42;44;0;45;0;46;0;47;0;50;0;53;0;58;0;59;0;63;0;64;0;65;0;67;0;69;0;70;0;75;0;77;0;78;0;82;0;83;0;91;0;92;0;93;0;95;0;99;0;101;0;102;0;103;0;106;0;109;0;110;0;111;0;112;0;113;0;117;0;118;0;119;0;120;0;185;0;8;1;9;1;18;1;23;1;6;16;123;0;125;0;126;0;146;0;151;0;154;0;157;0;162;0;163;0;168;0;180;0;181;0;182;0;205;0;224;0;230;0;13;1;10;0;7;1;19;0;3;1;200;0;1;1;198;0;1;1;204;0;1;1;226;0;1;2;186;0;220;0;2;1;206;0;3;2;229;0;238;0;1;1;205;0;1;1;242;0;2;1;239;0;1;4;210;0;212;0;214;0;218;0;1;1;208;0;1;1;235;0;1;2;121;0;225;0;1;1;240;0;1;1;202;0;2;1;81;0;1;8;55;0;60;0;86;0;87;0;88;0;93;0;96;0;116;0;1;1;76;0;1;1;54;0;1;4;84;0;94;0;104;0;107;0;1;1;105;0;1;1;52;0;1;1;56;0;2;1;155;0;1;8;192;0;193;0;194;0;195;0;196;0;197;0;245;0;246;0;1;3;147;0;148;0;158;0;1;1;159;0;1;2;254;0;255;0;1;1;171;0;1;1;131;0;11;2;123;0;126;0;2;1;224;0;2;1;177;0;1;1;169;0;2;1;143;0;2;1;170;0;4;1;213;0;1;1;135;0;1;1;152;0;1;1;150;0;1;1;137;0;1;1;166;0;3;1;175;0;113;1;35;0;1;1;186;0;1;1;226;0;3;1;42;0;2;1;205;0;2;1;6;0;1;1;12;0;1;1;38;0;1;1;4;0;1;1;11;0;1;1;0;0;1;1;39;0;1;1;37;0;1;1;26;0;1;1;40;0;1;1;250;0;1;1;189;0;1;1;16;0;1;1;1;0;1;1;24;0;1;1;36;0;1;1;5;0;1;1;15;0;1;1;187;0;1;1;41;0;1;1;30;0;1;1;25;0;1;1;8;0;1;2;23;0;28;0;1;1;27;0;1;1;189;0;1;1;244;0;1;1;190;0;1;1;248;0;1;1;21;0;1;1;22;0;1;1;2;0;1;1;34;0;1;1;14;0;1;1;35;0;1;1;13;0;1;1;20;0;1;1;9;0;1;1;31;0;2;1;29;0;1;1;243;0;1;2;251;0;252;0;1;1;18;0;1;1;43;0;1;1;7;0;1;1;32;0;1;1;17;0;1;1;33;0;1;1;247;0;21;1;190;0;1;1;3;0;6;1;48;0;1;1;188;0;1;3;68;0;108;0;115;0;45;1;220;0;1;1;220;0;1;1;220;0;1;1;220;0;1;1;220;0;1;1;220;0;1;1;209;0;1;2;184;0;216;0;1;1;219;0;1;3;210;0;212;0;218;0;1;1;189;0;1;1;236;0;1;1;221;0;1;1;161;0;1;2;211;0;222;0;1;1;234;0;11;1;205;0;1;1;205;0;1;1;205;0;1;1;207;0;1;1;183;0;1;1;224;0;1;1;199;0;1;1;223;0;1;1;231;0;2;1;215;0;1;1;201;0;1;1;227;0;1;1;201;0;2;1;241;0;1;1;217;0;1;1;232;0;2;1;233;0;1;1;229;0;1;2;229;0;238;0;2;2;229;0;238;0;1;1;229;0;1;2;229;0;238;0;2;1;229;0;1;2;229;0;238;0;22;1;228;0;1;1;203;0;2;1;237;0;18;1;218;0;1;1;218;0;1;3;210;0;212;0;218;0;2;3;210;0;212;0;218;0;3;3;210;0;212;0;218;0;1;3;210;0;212;0;218;0;21;1;225;0;2;1;225;0;1;1;225;0;1;1;225;0;1;1;225;0;1;1;225;0;1;1;225;0;1;1;225;0;1;1;225;0;21;1;191;0;1;1;51;0;1;1;72;0;1;1;66;0;1;1;114;0;1;1;59;0;1;1;61;0;1;1;97;0;1;1;89;0;1;1;100;0;13;1;88;0;1;1;88;0;1;1;88;0;1;1;88;0;2;1;88;0;1;1;88;0;1;1;88;0;22;1;107;0;1;1;107;0;1;1;107;0;1;1;107;0;3;1;107;0;1;1;107;0;1;1;84;0;2;1;105;0;1;1;105;0;1;1;105;0;1;1;105;0;1;1;105;0;1;1;105;0;1;1;105;0;1;1;105;0;1;1;105;0;21;1;71;0;1;1;80;0;1;1;74;0;1;2;73;0;5;1;1;1;57;0;1;1;49;0;1;1;85;0;1;1;98;0;1;1;90;0;1;2;62;0;79;0;12;1;197;0;1;1;197;0;1;1;197;0;1;1;197;0;3;1;197;0;4;2;147;0;158;0;1;1;147;0;2;1;158;0;2;1;147;0;1;1;147;0;1;1;147;0;13;1;254;0;1;1;254;0;1;1;254;0;1;1;254;0;1;1;254;0;1;1;254;0;1;1;254;0;1;1;254;0;1;1;254;0;21;1;140;0;2;1;16;1;1;1;134;0;1;1;14;1;1;1;21;1;1;1;26;1;1;1;7;1;1;1;0;1;1;1;3;1;1;1;19;1;1;1;28;1;1;1;22;1;1;1;15;1;2;1;253;0;1;3;1;1;10;1;25;1;1;1;17;1;1;1;4;1;1;3;6;1;13;1;24;1;1;1;2;1;1;3;11;1;20;1;27;1;1;1;12;1;41;1;182;0;1;1;182;0;1;1;182;0;1;1;224;0;4;1;205;0;7;1;224;0;1;1;224;0;1;1;224;0;22;1;123;0;1;1;123;0;7;1;123;0;2;1;224;0;1;1;224;0;1;1;224;0;3;1;224;0;1;1;224;0;63;1;169;0;2;1;144;0;1;1;170;0;2;1;164;0;1;1;179;0;5;1;170;0;1;1;170;0;1;1;170;0;1;1;170;0;1;1;170;0;1;1;170;0;1;1;170;0;1;1;170;0;1;1;170;0;11;1;139;0;6;1;172;0;74;1;249;0;1;1;132;0;1;1;124;0;1;1;138;0;1;1;128;0;1;1;156;0;1;1;167;0;1;1;122;0;1;1;160;0;2;1;205;0;1;1;141;0;1;1;149;0;1;1;129;0;1;1;165;0;1;1;176;0;1;3;136;0;145;0;178;0;1;1;153;0;15;1;142;0;1;1;127;0;1;1;130;0;1;1;174;0;1;1;133;0;2;1;173;0;203;1;1;93;0;1;1;93;0;1;1;93;0;1;1;120;0;1;1;59;0;1;1;82;0;1;1;93;0;2;1;82;0;1;1;59;0;2;1;93;0;1;1;82;0;1;1;59;0;1;1;93;0;1;1;93;0;1;1;59;0;1;1;59;0;1;1;93;0;1;1;93;0;3;1;93;0;1;1;59;0;1;1;59;0;1;1;117;0;1;1;93;0;1;1;59;0;1;1;93;0;2;1;93;0;3;1;93;0;1;1;59;0;1;1;119;0;3;1;93;0;1;1;93;0;2;1;92;0;4;1;50;0;2;1;93;0;1;1;117;0;1;1;119;0;1;1;59;0;1;1;93;0;1;1;82;0;1;1;59;0;2;1;59;0;1;1;119;0;3;1;93;0;2;1;59;0;1;1;117;0;1;1;46;0;3;1;93;0;1;1;47;0;1;1;93;0;1;1;93;0;2;1;93;0;2;1;59;0;2;1;93;0;3;1;82;0;2;1;59;0;2;1;93;0;1;1;118;0;5;1;117;0;12;1;93;0;1;1;93;0;1;1;63;0;1;1;93;0;1;1;93;0;1;1;103;0;1;1;63;0;1;1;59;0;1;1;59;0;3;1;59;0;1;1;93;0;1;1;59;0;1;1;93;0;1;1;59;0;1;1;93;0;1;1;59;0;1;1;59;0;1;1;59;0;1;1;93;0;2;1;82;0;1;1;93;0;1;1;59;0;1;1;93;0;1;1;59;0;2;1;93;0;1;1;93;0;1;1;59;0;1;1;93;0;2;1;59;0;2;1;93;0;1;1;59;0;2;1;93;0;1;1;112;0;1;1;82;0;2;1;117;0;2;1;58;0;1;1;59;0;1;1;93;0;3;1;82;0;1;1;93;0;1;1;93;0;1;1;59;0;1;1;117;0;6;1;82;0;1;1;59;0;2;1;93;0;1;1;93;0;1;1;117;0;2;1;117;0;1;1;65;0;1;1;82;0;11;1;93;0;2;1;117;0;3;1;63;0;1;1;93;0;15;1;93;0;1;1;59;0;1;1;65;0;1;1;93;0;1;1;59;0;1;1;63;0;1;1;93;0;1;1;82;0;1;1;59;0;1;1;93;0;2;1;93;0;1;1;93;0;1;1;59;0;1;1;82;0;1;1;117;0;1;1;59;0;1;1;117;0;1;1;93;0;4;1;59;0;1;1;82;0;1;1;82;0;3;1;75;0;2;1;59;0;1;1;120;0;1;1;59;0;2;1;93;0;1;1;63;0;2;1;117;0;1;1;117;0;2;1;93;0;1;1;185;0;1;1;82;0;1;1;93;0;2;1;93;0;2;1;59;0;1;1;93;0;2;1;117;0;8;1;82;0;5;1;93;0;1;1;59;0;4;1;117;0;1;1;59;0;1;1;93;0;2;1;93;0;1;1;70;0;1;1;120;0;1;1;93;0;3;1;93;0;1;1;59;0;1;1;99;0;4;1;93;0;17;1;59;0;1;1;93;0;1;1;82;0;1;1;59;0;1;1;63;0;1;1;75;0;1;1;59;0;1;1;93;0;1;1;82;0;1;1;82;0;2;1;59;0;1;1;93;0;1;1;117;0;1;1;59;0;1;1;93;0;1;1;93;0;1;1;93;0;1;1;117;0;1;1;99;0;10;1;82;0;1;1;59;0;3;1;59;0;5;1;59;0;1;1;93;0;1;1;82;0;7;1;117;0;3;1;93;0;6;1;59;0;2;1;82;0;2;1;93;0;1;1;82;0;1;1;59;0;1;1;82;0;3;1;93;0;3;1;93;0;1;1;93;0;1;1;59;0;1;1;59;0;1;1;93;0;1;1;63;0;4;1;117;0;1;1;59;0;1;1;117;0;1;1;93;0;2;1;120;0;1;1;93;0;1;1;93;0;1;1;65;0;14;1;59;0;1;1;99;0;1;1;93;0;1;1;119;0;1;2;63;0;95;0;1;1;93;0;1;1;93;0;1;1;59;0;1;1;93;0;1;1;93;0;2;1;59;0;1;1;117;0;1;1;93;0;1;1;59;0;1;1;93;0;1;1;93;0;1;1;59;0;1;1;82;0;1;1;59;0;3;1;99;0;3;1;82;0;2;1;82;0;1;1;59;0;1;1;59;0;1;1;93;0;5;1;59;0;3;1;103;0;1;1;93;0;1;1;59;0;4;1;93;0;1;1;93;0;1;1;117;0;2;1;69;0;1;1;82;0;1;1;59;0;5;1;93;0;1;1;82;0;1;1;77;0;1;1;59;0;1;1;59;0;1;1;82;0;1;1;59;0;2;1;91;0;3;1;93;0;2;1;82;0;1;1;23;1;1;1;8;1;1;1;119;0;6;1;93;0;2;1;93;0;1;1;93;0;1;1;59;0;1;1;117;0;1;1;18;1;2;1;93;0;3;1;59;0;12;2;63;0;95;0;1;1;82;0;1;1;93;0;1;1;93;0;1;1;117;0;1;1;93;0;1;1;82;0;1;1;59;0;1;2;102;0;109;0;3;1;59;0;1;1;59;0;1;1;82;0;1;1;59;0;1;1;93;0;1;1;93;0;1;1;93;0;1;1;63;0;1;1;63;0;1;1;83;0;3;1;93;0;1;1;82;0;1;1;59;0;1;1;93;0;1;1;93;0;2;1;59;0;1;1;59;0;1;1;93;0;2;1;93;0;3;1;59;0;1;1;82;0;2;1;93;0;2;1;117;0;1;1;93;0;4;1;82;0;1;1;63;0;5;1;117;0;1;1;93;0;3;1;93;0;1;1;111;0;2;1;82;0;2;1;93;0;1;1;59;0;2;1;93;0;2;1;64;0;2;1;59;0;1;1;93;0;1;1;93;0;1;1;93;0;1;1;59;0;1;1;93;0;1;2;53;0;82;0;3;1;119;0;1;1;59;0;1;1;65;0;1;1;93;0;1;1;75;0;2;1;113;0;1;1;59;0;1;1;93;0;1;1;102;0;14;1;63;0;1;1;93;0;1;1;93;0;1;1;93;0;1;1;82;0;1;1;59;0;1;1;117;0;1;1;9;1;1;1;106;0;1;1;93;0;2;1;93;0;1;1;93;0;1;1;93;0;1;1;59;0;1;1;59;0;1;1;59;0;1;1;82;0;1;1;117;0;1;1;82;0;1;1;93;0;4;1;65;0;1;1;93;0;2;1;93;0;1;1;106;0;1;1;59;0;1;1;82;0;1;1;59;0;3;1;93;0;3;1;93;0;1;1;93;0;1;1;82;0;3;1;93;0;2;1;93;0;2;1;59;0;1;1;93;0;1;1;106;0;1;1;93;0;4;1;93;0;2;1;93;0;1;1;93;0;1;1;82;0;1;1;93;0;1;1;93;0;2;1;93;0;1;1;93;0;1;1;93;0;1;1;93;0;2;1;67;0;1;1;101;0;1;1;110;0;1;1;59;0;2;1;59;0;1;1;117;0;3;1;77;0;2;1;93;0;1;2;102;0;109;0;22;1;59;0;1;1;75;0;1;1;59;0;1;1;93;0;1;1;117;0;1;1;93;0;1;2;44;0;45;0;1;1;93;0;1;1;82;0;1;1;93;0;2;1;93;0;1;1;59;0;1;1;93;0;1;1;63;0;1;1;82;0;1;1;93;0;1;1;59;0;1;1;93;0;1;1;59;0;5;1;82;0;3;1;99;0;1;1;93;0;1;1;93;0;1;1;59;0;3;1;93;0;2;1;59;0;1;1;93;0;1;1;59;0;1;1;102;0;1;1;59;0;1;1;93;0;1;1;117;0;1;1;93;0;2;1;59;0;2;1;93;0;1;1;93;0;1;1;82;0;2;1;82;0;1;1;59;0;2;1;93;0;2;1;59;0;3;1;93;0;11;1;63;0;1;1;82;0;1;1;59;0;1;1;93;0;2;1;59;0;3;1;93;0;1;1;59;0;1;1;93;0;3;1;63;0;1;1;93;0;1;1;59;0;1;2;53;0;82;0;3;1;93;0;186;3;1;23;0;1;1;28;0;1;1;23;0;1;1;23;0;1;1;23;0;1;1;23;0;2;2;23;0;28;0;1;2;23;0;28;0;168;4;1;68;0;1;1;68;0;1;1;68;0;1;1;68;0;1;1;68;0;1;1;68;0;2;1;68;0;1;1;68;0;128;4;2;184;0;216;0;1;1;216;0;1;2;184;0;216;0;3;2;184;0;216;0;1;2;184;0;216;0;1;2;184;0;216;0;1;2;184;0;216;0;62;1;211;0;1;1;211;0;1;1;211;0;1;2;211;0;222;0;1;1;211;0;1;1;211;0;1;2;211;0;222;0;1;1;211;0;1;1;211;0;241;6;3;210;0;212;0;218;0;1;3;210;0;212;0;218;0;1;3;210;0;212;0;218;0;1;3;210;0;212;0;218;0;1;3;210;0;212;0;218;0;1;3;210;0;212;0;218;0;2;3;210;0;212;0;218;0;1;3;210;0;212;0;218;0;1;3;210;0;212;0;218;0;172;2;1;121;0;227;3;1;87;0;1;1;87;0;1;1;87;0;5;1;87;0;153;2;1;107;0;1;1;107;0;2;1;107;0;1;1;107;0;1;1;107;0;6;1;107;0;1;1;107;0;1;1;107;0;1;1;107;0;1;1;84;0;1;1;84;0;1;1;84;0;1;1;104;0;1;1;84;0;21;1;107;0;6;1;107;0;2;1;107;0;1;1;107;0;204;2;2;73;0;5;1;1;1;73;0;1;1;73;0;1;1;73;0;1;1;73;0;1;1;73;0;1;1;73;0;2;1;73;0;54;1;79;0;1;1;79;0;2;1;62;0;1;1;79;0;2;1;62;0;187;1;2;192;0;196;0;1;2;192;0;196;0;1;2;192;0;196;0;1;2;192;0;196;0;42;1;147;0;1;1;147;0;1;1;147;0;1;1;147;0;1;1;147;0;1;1;158;0;1;1;158;0;1;1;158;0;15;1;147;0;1;1;158;0;1;1;158;0;1;1;147;0;24;2;147;0;158;0;10;1;148;0;1;1;148;0;1;1;148;0;6;1;148;0;212;4;1;24;1;19;1;27;1;5;3;11;1;20;1;27;1;1;3;11;1;20;1;27;1;254;2;1;146;0;1;1;181;0;39;1;230;0;40;1;163;0;1;1;162;0;1;1;162;0;1;1;154;0;1;1;154;0;3;1;154;0;2;1;154;0;1;1;154;0;3;1;154;0;1;1;146;0;16;1;181;0;2;1;157;0;2;1;151;0;1;1;181;0;5;1;180;0;2;1;180;0;1;1;168;0;2;1;180;0;1;1;125;0;156;2;1;126;0;1;1;126;0;1;1;126;0;16;1;126;0;71;3;123;0;126;0;224;0;3;1;224;0;1;1;224;0;4;3;123;0;126;0;224;0;1;3;123;0;126;0;224;0;1;3;123;0;126;0;224;0;30;2;205;0;224;0;1;1;224;0;1;1;230;0;1;1;224;0;1;1;224;0;1;1;224;0;1;1;230;0;1;1;224;0;1;1;230;0;3;1;230;0;4;1;224;0;1;1;224;0;1;1;224;0;244;14;1;178;0;1;1;178;0;1;1;178;0;1;1;178;0;1;1;178;0;137;18;2;53;0;82;0;1;1;63;0;2;2;53;0;82;0;1;2;53;0;82;0;3;2;53;0;82;0;245;7;1;82;0;1;1;82;0;1;1;82;0;1;1;82;0;1;1;82;0;1;1;82;0;1;1;82;0;1;1;82;0;226;102;1;251;0;6;1;252;0;11;2;251;0;252;0;1;1;252;0;1;1;252;0;6;1;252;0;1;1;252;0;252;28;1;115;0;2;1;108;0;215;37;1;186;0;5;1;186;0;1;1;186;0;94;1;186;0;6;1;186;0;242;6;2;211;0;222;0;8;1;222;0;2;2;211;0;222;0;9;2;211;0;222;0;1;2;211;0;222;0;9;2;211;0;222;0;11;2;211;0;222;0;10;2;211;0;222;0;20;2;211;0;222;0;176;69;3;210;0;212;0;218;0;2;3;210;0;212;0;218;0;1;3;210;0;212;0;218;0;2;3;210;0;212;0;218;0;1;3;210;0;212;0;218;0;1;3;210;0;212;0;218;0;1;3;210;0;212;0;218;0;136;58;2;88;0;116;0;1;2;88;0;93;0;110;1;87;0;8;1;87;0;4;1;87;0;1;1;87;0;1;1;87;0;2;1;87;0;62;1;87;0;223;1;1;87;0;1;1;87;0;1;1;87;0;1;1;87;0;1;1;116;0;2;1;88;0;8;1;96;0;20;1;116;0;3;2;87;0;88;0;2;1;87;0;1;1;87;0;1;1;87;0;3;1;60;0;1;1;87;0;1;1;116;0;1;1;87;0;1;1;87;0;1;1;116;0;1;1;87;0;1;1;88;0;1;1;116;0;1;1;116;0;2;1;87;0;1;1;87;0;1;1;87;0;2;1;88;0;1;1;87;0;1;1;87;0;1;1;88;0;1;1;88;0;1;1;88;0;1;1;88;0;9;1;116;0;1;1;87;0;180;1;1;86;0;10;1;86;0;1;1;86;0;16;1;86;0;5;1;86;0;84;1;55;0;1;1;55;0;3;1;55;0;11;1;55;0;254;21;1;94;0;2;1;94;0;1;1;94;0;2;1;94;0;2;1;94;0;205;27;2;73;0;5;1;203;18;1;193;0;124;2;192;0;196;0;152;1;2;147;0;158;0;244;2;2;147;0;158;0;24;2;148;0;158;0;55;2;147;0;158;0;53;1;158;0;1;1;158;0;1;1;147;0;2;1;147;0;1;2;147;0;158;0;1;1;158;0;1;1;158;0;1;1;147;0;3;1;147;0;3;1;147;0;1;1;158;0;1;1;158;0;1;1;147;0;11;2;147;0;158;0;144;2;2;147;0;158;0;7;2;147;0;158;0;1;2;147;0;158;0;5;2;147;0;158;0;5;2;147;0;158;0;2;2;147;0;158;0;2;2;147;0;158;0;1;2;147;0;158;0;5;2;147;0;158;0;14;2;147;0;158;0;15;2;147;0;158;0;8;2;147;0;158;0;11;2;147;0;158;0;28;2;147;0;148;0;5;1;147;0;31;1;148;0;1;2;147;0;148;0;3;1;148;0;1;1;148;0;1;1;148;0;1;1;147;0;4;1;148;0;1;1;147;0;3;1;148;0;1;1;148;0;2;1;148;0;2;1;148;0;4;1;148;0;4;1;147;0;199;10;1;255;0;170;36;3;6;1;13;1;24;1;7;3;6;1;13;1;24;1;1;1;24;1;1;1;24;1;143;1;1;20;1;5;1;11;1;186;222;1;1;178;0;1;1;178;0;1;1;178;0;1;1;145;0;1;1;178;0;6;1;178;0;1;1;178;0;1;1;178;0;1;1;145;0;1;1;178;0;1;1;178;0;157;181;1;1;63;0;5;1;63;0;2;2;53;0;82;0;1;2;53;0;82;0;10;2;53;0;82;0;1;1;63;0;4;1;63;0;2;2;53;0;82;0;1;2;53;0;82;0;3;1;63;0;14;1;82;0;5;2;53;0;82;0;1;1;63;0;1;1;63;0;1;2;53;0;82;0;1;2;53;0;82;0;2;2;53;0;82;0;2;2;53;0;82;0;1;2;53;0;82;0;1;2;53;0;82;0;1;2;53;0;82;0;1;2;53;0;82;0;1;2;53;0;82;0;1;1;63;0;1;1;63;0;2;1;63;0;1;1;63;0;203;8;1;59;0;4;1;59;0;1;1;59;0;1;1;59;0;210;39;1;59;0;172;29;1;63;0;235;89;1;93;0;10;1;93;0;14;1;93;0;2;1;93;0;13;1;93;0;251;141;1;1;59;0;2;1;59;0;1;1;59;0;33;1;59;0;209;74;1;59;0;1;1;59;0;2;1;59;0;239;57;1;82;0;1;1;82;0;2;1;82;0;47;1;82;0;3;1;82;0;3;1;82;0;198;28;1;59;0;5;1;59;0;192;29;1;59;0;20;1;59;0;2;1;59;0;2;1;59;0;21;1;59;0;18;1;59;0;132;44;1;78;0;2;1;78;0;3;1;78;0;6;1;78;0;12;1;78;0;221;174;4;1;252;0;1;1;252;0;6;1;251;0;191;183;5;1;184;0;3;1;184;0;1;1;184;0;158;181;2;2;229;0;238;0;171;139;3;1;210;0;53;1;214;0;90;1;212;0;128;47;3;210;0;212;0;218;0;1;3;210;0;212;0;218;0;2;3;210;0;212;0;218;0;1;3;210;0;212;0;218;0;2;3;210;0;212;0;218;0;47;3;210;0;212;0;218;0;6;3;210;0;212;0;218;0;224;222;6;1;94;0;4;1;94;0;2;1;94;0;1;1;94;0;1;1;94;0;225;7;1;107;0;66;1;107;0;249;197;3;1;193;0;2;1;193;0;2;1;193;0;1;1;193;0;14;1;193;0;1;1;193;0;3;1;193;0;9;1;193;0;1;1;193;0;6;1;193;0;8;1;193;0;3;1;193;0;2;1;193;0;5;1;193;0;2;1;193;0;1;1;193;0;7;1;193;0;1;1;193;0;1;1;193;0;1;1;193;0;16;1;193;0;225;8;2;192;0;196;0;1;1;196;0;2;1;197;0;1;1;197;0;190;189;4;1;20;1;1;1;20;1;3;1;20;1;2;1;20;1;7;1;27;1;193;172;17;1;136;0;100;1;136;0;135;148;14;1;63;0;14;1;82;0;6;1;63;0;5;1;63;0;1;1;63;0;1;1;63;0;13;1;63;0;1;1;63;0;3;1;82;0;4;1;63;0;1;1;63;0;1;1;63;0;2;1;63;0;1;1;63;0;1;1;82;0;3;1;63;0;4;1;82;0;1;1;82;0;2;1;82;0;2;1;82;0;11;1;63;0;12;1;82;0;2;1;82;0;5;1;63;0;7;1;82;0;1;1;82;0;15;2;53;0;82;0;5;2;53;0;82;0;3;2;53;0;82;0;1;2;53;0;82;0;1;2;53;0;82;0;2;2;53;0;82;0;3;2;53;0;82;0;6;2;53;0;82;0;6;2;53;0;82;0;1;2;53;0;82;0;1;2;53;0;82;0;6;2;53;0;82;0;3;2;53;0;82;0;3;2;53;0;82;0;2;2;53;0;82;0;1;2;53;0;82;0;4;2;53;0;82;0;1;2;53;0;82;0;1;2;53;0;82;0;2;2;53;0;82;0;2;2;53;0;82;0;5;2;53;0;82;0;1;2;53;0;82;0;6;2;53;0;82;0;1;2;53;0;82;0;6;2;53;0;82;0;1;2;53;0;82;0;1;2;53;0;82;0;1;2;53;0;82;0;3;2;53;0;82;0;1;2;53;0;82;0;1;1;63;0;1;1;63;0;1;1;63;0;1;2;53;0;82;0;1;2;53;0;82;0;1;2;53;0;82;0;1;1;63;0;1;2;53;0;82;0;1;1;63;0;3;1;63;0;2;1;63;0;5;1;63;0;2;2;53;0;82;0;6;2;53;0;82;0;1;2;53;0;82;0;2;2;53;0;82;0;1;1;63;0;1;2;53;0;82;0;1;1;63;0;1;2;53;0;82;0;1;2;53;0;82;0;1;1;63;0;1;1;82;0;1;1;63;0;1;2;53;0;82;0;1;1;63;0;1;2;53;0;82;0;1;1;63;0;1;1;82;0;1;2;53;0;82;0;1;2;53;0;82;0;1;1;82;0;1;2;53;0;82;0;1;1;82;0;1;2;53;0;82;0;1;2;53;0;82;0;1;2;53;0;82;0;1;1;63;0;1;1;63;0;1;1;63;0;1;1;63;0;1;2;53;0;82;0;1;1;82;0;1;2;53;0;82;0;1;1;63;0;1;2;53;0;82;0;4;2;53;0;82;0;5;2;53;0;82;0;1;2;53;0;82;0;1;2;53;0;82;0;1;1;63;0;1;1;63;0;1;2;53;0;82;0;1;1;63;0;1;1;82;0;1;2;53;0;82;0;1;1;63;0;1;2;53;0;82;0;5;1;63;0;5;1;63;0;6;1;63;0;10;1;63;0;9;1;63;0;1;1;63;0;20;1;63;0;1;1;63;0;2;1;63;0;1;1;63;0;3;1;63;0;1;1;63;0;3;1;63;0;1;1;63;0;2;1;63;0;3;1;63;0;4;1;82;0;1;1;63;0;1;1;63;0;1;1;63;0;3;1;63;0;7;1;63;0;1;1;63;0;1;1;63;0;2;1;63;0;4;1;63;0;1;1;63;0;7;1;63;0;2;1;63;0;1;1;63;0;1;1;63;0;6;1;63;0;1;1;82;0;6;1;63;0;6;1;63;0;2;1;82;0;12;1;63;0;1;1;82;0;1;1;63;0;1;1;82;0;3;1;63;0;1;1;63;0;2;1;63;0;3;1;63;0;3;1;63;0;2;1;63;0;1;1;82;0;2;1;63;0;9;1;82;0;1;1;63;0;4;1;63;0;2;1;63;0;1;1;82;0;13;1;63;0;4;1;82;0;1;1;63;0;1;1;63;0;3;1;63;0;1;1;82;0;1;1;82;0;1;1;63;0;2;1;82;0;1;1;82;0;4;1;82;0;4;1;63;0;2;1;63;0;2;1;82;0;1;2;53;0;82;0;1;2;53;0;82;0;1;2;53;0;82;0;1;1;63;0;1;1;82;0;1;1;63;0;1;1;63;0;1;2;53;0;82;0;1;2;53;0;82;0;1;1;63;0;4;1;63;0;3;1;63;0;5;2;53;0;82;0;2;2;53;0;82;0;5;2;53;0;82;0;1;2;53;0;82;0;1;2;53;0;82;0;8;2;53;0;82;0;1;2;53;0;82;0;4;1;82;0;2;1;63;0;1;1;82;0;9;1;82;0;1;1;63;0;4;2;53;0;82;0;1;1;63;0;1;1;82;0;1;2;53;0;82;0;1;2;53;0;82;0;1;1;82;0;1;1;63;0;1;2;53;0;82;0;1;2;53;0;82;0;1;1;82;0;3;1;82;0;1;1;82;0;4;1;82;0;3;2;53;0;82;0;1;2;53;0;82;0;1;1;63;0;1;1;82;0;1;1;82;0;1;1;63;0;1;2;53;0;82;0;1;1;63;0;1;1;63;0;1;1;63;0;2;1;82;0;3;1;63;0;4;1;82;0;1;1;82;0;15;1;63;0;4;1;82;0;1;1;82;0;11;1;63;0;5;1;82;0;2;1;63;0;4;1;63;0;2;1;82;0;3;1;63;0;1;1;63;0;4;2;53;0;82;0;5;2;53;0;82;0;1;2;53;0;82;0;1;2;53;0;82;0;4;2;53;0;82;0;2;2;53;0;82;0;1;2;53;0;82;0;3;2;53;0;82;0;2;1;63;0;1;1;63;0;1;2;53;0;82;0;1;2;53;0;82;0;1;2;53;0;82;0;1;1;82;0;1;2;53;0;82;0;1;2;53;0;82;0;1;1;63;0;1;1;63;0;3;1;82;0;1;1;82;0;2;1;82;0;4;2;53;0;82;0;3;2;53;0;82;0;1;2;53;0;82;0;1;2;53;0;82;0;3;2;53;0;82;0;4;1;63;0;3;1;63;0;2;1;63;0;2;1;63;0;9;1;63;0;1;1;63;0;3;1;63;0;1;1;63;0;4;1;82;0;2;1;63;0;6;1;63;0;1;1;82;0;1;1;63;0;2;1;63;0;1;1;63;0;2;1;63;0;3;1;63;0;2;1;82;0;1;1;63;0;2;1;63;0;5;1;63;0;1;1;63;0;7;1;82;0;2;1;82;0;19;1;82;0;6;1;63;0;2;1;63;0;3;1;63;0;1;1;63;0;1;1;63;0;246;79;1;59;0;1;1;59;0;15;1;59;0;19;1;59;0;2;1;59;0;22;1;59;0;1;1;59;0;13;1;59;0;23;1;59;0;2;1;59;0;1;1;59;0;1;1;59;0;19;1;59;0;17;1;59;0;3;1;59;0;4;1;59;0;5;1;59;0;18;1;59;0;1;1;59;0;2;1;59;0;2;1;59;0;1;1;59;0;29;1;59;0;13;1;59;0;22;1;59;0;2;1;59;0;1;1;59;0;7;1;59;0;1;1;59;0;1;1;59;0;2;1;59;0;1;1;59;0;36;1;59;0;18;1;59;0;17;1;59;0;10;1;59;0;37;1;59;0;64;1;59;0;2;1;59;0;1;1;59;0;1;1;59;0;27;1;59;0;6;1;59;0;11;1;59;0;21;1;59;0;5;1;59;0;3;1;59;0;2;1;59;0;17;1;59;0;1;1;59;0;1;1;59;0;2;1;59;0;3;1;59;0;1;1;59;0;1;1;59;0;2;1;59;0;3;1;59;0;9;1;59;0;1;1;59;0;6;1;59;0;2;1;59;0;4;1;59;0;12;1;59;0;33;1;59;0;2;1;59;0;6;1;59;0;1;1;59;0;7;1;59;0;1;1;59;0;11;1;59;0;1;1;59;0;1;1;59;0;6;1;59;0;1;1;59;0;1;1;59;0;4;1;59;0;1;1;59;0;77;1;59;0;6;1;59;0;1;1;59;0;9;1;59;0;5;1;59;0;3;1;59;0;3;1;59;0;4;1;59;0;2;1;59;0;7;1;59;0;166;236;1;1;65;0;19;1;65;0;1;1;65;0;1;1;65;0;78;1;65;0;1;1;65;0;2;1;65;0;3;1;65;0;70;1;65;0;6;1;65;0;2;1;65;0;1;1;65;0;1;1;65;0;1;1;65;0;61;1;65;0;230;1;1;65;0;55;1;65;0;8;1;65;0;2;1;65;0;1;1;65;0;2;1;65;0;1;1;65;0;214;151;1;1;59;0;28;1;59;0;6;1;59;0;1;1;59;0;3;1;59;0;2;1;59;0;5;1;59;0;4;1;59;0;8;1;59;0;6;1;59;0;8;1;59;0;1;1;59;0;8;1;59;0;16;1;59;0;35;1;59;0;2;1;59;0;3;1;59;0;5;1;59;0;11;1;59;0;8;1;59;0;3;1;59;0;19;1;59;0;4;1;59;0;1;1;59;0;4;1;59;0;2;1;59;0;20;1;59;0;17;1;59;0;7;1;59;0;2;1;59;0;1;1;59;0;1;1;59;0;1;1;59;0;18;1;59;0;10;1;59;0;11;1;59;0;4;1;59;0;8;1;59;0;27;1;59;0;2;1;59;0;2;1;59;0;1;1;59;0;1;1;59;0;6;1;59;0;1;1;59;0;3;1;59;0;4;1;59;0;5;1;59;0;7;1;59;0;9;1;59;0;12;1;59;0;11;1;59;0;11;1;59;0;1;1;59;0;20;1;59;0;4;1;59;0;6;1;59;0;1;1;59;0;10;1;59;0;1;1;59;0;6;1;59;0;5;1;59;0;2;1;59;0;6;1;59;0;6;1;59;0;2;1;59;0;11;1;59;0;13;1;59;0;16;1;59;0;18;1;59;0;1;1;59;0;19;1;59;0;1;1;59;0;7;1;59;0;1;1;59;0;1;1;59;0;1;1;59;0;3;1;59;0;2;1;59;0;1;1;59;0;5;1;59;0;6;1;59;0;7;1;59;0;1;1;59;0;1;1;59;0;1;1;59;0;3;1;59;0;6;1;59;0;1;1;59;0;3;1;59;0;1;1;59;0;1;1;59;0;23;1;59;0;3;1;59;0;1;1;59;0;1;1;59;0;1;1;59;0;3;1;59;0;1;1;59;0;11;1;59;0;1;1;59;0;3;1;59;0;6;1;59;0;12;1;59;0;2;1;59;0;13;1;59;0;2;1;59;0;4;1;59;0;1;1;59;0;1;1;59;0;2;1;59;0;9;1;59;0;3;1;59;0;3;1;59;0;20;1;59;0;2;1;59;0;1;1;59;0;1;1;59;0;1;1;59;0;3;1;59;0;33;1;59;0;23;1;59;0;255;162;2;1;63;0;19;1;63;0;8;1;63;0;20;1;63;0;2;1;63;0;43;1;63;0;25;1;63;0;42;1;63;0;29;1;63;0;9;1;63;0;4;1;63;0;110;1;63;0;77;1;63;0;7;1;63;0;2;1;63;0;1;1;63;0;2;1;63;0;30;1;63;0;97;1;63;0;10;1;63;0;102;1;63;0;8;1;63;0;231;219;6;1;75;0;49;1;75;0;248;32;1;93;0;7;1;93;0;8;1;93;0;1;1;93;0;6;1;93;0;21;1;93;0;1;1;93;0;1;1;93;0;6;1;93;0;1;1;93;0;3;1;93;0;5;1;93;0;1;1;93;0;2;1;93;0;1;1;93;0;1;1;93;0;5;1;93;0;6;1;93;0;1;1;93;0;3;1;93;0;1;1;93;0;3;1;93;0;2;1;93;0;8;1;93;0;9;1;93;0;2;1;93;0;10;1;93;0;1;1;93;0;5;1;93;0;5;1;93;0;15;1;93;0;1;1;93;0;1;1;93;0;1;1;93;0;3;1;93;0;8;1;93;0;8;1;93;0;13;1;93;0;13;1;93;0;1;1;93;0;4;1;93;0;6;1;93;0;19;1;93;0;1;1;93;0;2;1;93;0;1;1;93;0;6;1;93;0;3;1;93;0;5;1;93;0;3;1;93;0;1;1;93;0;8;1;93;0;2;1;93;0;14;1;93;0;1;1;93;0;17;1;93;0;2;1;93;0;16;1;93;0;4;1;93;0;1;1;93;0;2;1;93;0;11;1;93;0;4;1;93;0;6;1;93;0;7;1;93;0;4;1;93;0;1;1;93;0;4;1;93;0;6;1;93;0;6;1;93;0;3;1;93;0;4;1;93;0;3;1;93;0;1;1;93;0;3;1;93;0;5;1;93;0;3;1;93;0;4;1;93;0;1;1;93;0;1;1;93;0;8;1;93;0;7;1;93;0;8;1;93;0;3;1;93;0;1;1;93;0;17;1;93;0;3;1;93;0;2;1;93;0;2;1;93;0;1;1;93;0;4;1;93;0;5;1;93;0;4;1;93;0;11;1;93;0;1;1;93;0;3;1;93;0;30;1;93;0;1;1;93;0;4;1;93;0;6;1;93;0;2;1;93;0;12;1;93;0;3;1;93;0;2;1;93;0;1;1;93;0;5;1;93;0;2;1;93;0;8;1;93;0;1;1;93;0;1;1;93;0;1;1;93;0;6;1;93;0;1;1;93;0;3;1;93;0;1;1;93;0;3;1;93;0;4;1;93;0;1;1;93;0;3;1;93;0;4;1;93;0;3;1;93;0;3;1;93;0;6;1;93;0;3;1;93;0;1;1;93;0;2;1;93;0;4;1;93;0;4;1;93;0;2;1;93;0;2;1;93;0;1;1;93;0;2;1;93;0;16;1;93;0;1;1;93;0;3;1;93;0;1;1;93;0;13;1;93;0;3;1;93;0;1;1;93;0;1;1;93;0;3;1;93;0;7;1;93;0;1;1;93;0;2;1;93;0;10;1;93;0;2;1;93;0;1;1;93;0;5;1;93;0;1;1;93;0;1;1;93;0;1;1;93;0;6;1;93;0;2;1;93;0;6;1;93;0;1;1;93;0;1;1;93;0;5;1;93;0;8;1;93;0;6;1;93;0;2;1;93;0;6;1;93;0;5;1;93;0;2;1;93;0;1;1;93;0;4;1;93;0;19;1;93;0;2;1;93;0;14;1;93;0;7;1;93;0;4;1;93;0;10;1;93;0;135;149;7;1;63;0;101;1;63;0;152;3;1;63;0;8;1;63;0;243;128;2;1;59;0;124;1;59;0;225;236;1;1;59;0;8;1;63;0;8;1;59;0;4;1;59;0;2;1;63;0;1;1;59;0;1;1;59;0;1;1;59;0;3;1;59;0;3;1;59;0;2;1;59;0;21;1;63;0;1;1;59;0;4;1;59;0;1;1;59;0;1;1;59;0;9;1;59;0;3;1;59;0;1;1;59;0;4;1;63;0;5;1;59;0;13;1;59;0;13;1;59;0;2;1;59;0;9;1;59;0;1;1;59;0;1;1;59;0;5;1;59;0;13;1;63;0;1;1;63;0;1;1;63;0;2;1;59;0;2;1;63;0;1;1;63;0;7;1;63;0;15;1;59;0;1;1;59;0;2;1;59;0;1;1;63;0;2;1;59;0;5;1;63;0;3;1;59;0;3;1;59;0;1;1;63;0;2;1;63;0;1;1;63;0;2;1;63;0;1;1;63;0;3;1;59;0;2;1;63;0;16;1;63;0;10;1;59;0;1;1;59;0;2;1;59;0;2;1;63;0;1;1;63;0;1;1;59;0;16;1;59;0;7;1;63;0;17;1;59;0;12;1;63;0;3;1;59;0;11;1;59;0;30;1;59;0;4;1;59;0;7;1;59;0;4;1;59;0;10;1;59;0;21;1;63;0;4;1;63;0;4;1;59;0;2;1;63;0;5;1;59;0;4;1;63;0;1;1;59;0;4;1;59;0;12;1;59;0;12;1;59;0;2;1;59;0;2;1;59;0;1;1;59;0;14;1;63;0;1;1;63;0;2;1;63;0;3;1;59;0;2;1;59;0;16;1;59;0;1;1;63;0;2;1;59;0;1;1;59;0;4;1;63;0;4;1;59;0;8;1;63;0;31;1;63;0;1;1;63;0;1;1;63;0;1;1;63;0;1;1;63;0;1;1;63;0;1;1;63;0;1;1;63;0;1;1;59;0;1;1;59;0;3;1;59;0;6;1;59;0;9;1;59;0;2;1;63;0;2;1;59;0;6;1;59;0;2;1;63;0;4;1;59;0;4;1;59;0;2;1;59;0;7;1;59;0;1;1;59;0;2;1;59;0;3;1;59;0;9;1;63;0;4;1;63;0;5;1;59;0;27;1;63;0;12;1;59;0;2;1;63;0;5;1;59;0;3;1;59;0;7;1;59;0;1;1;59;0;1;1;59;0;2;1;59;0;3;1;63;0;8;1;63;0;7;1;59;0;4;1;59;0;3;1;59;0;1;1;59;0;4;1;59;0;6;1;63;0;31;1;63;0;2;1;59;0;3;1;59;0;1;1;59;0;11;1;59;0;1;1;59;0;4;1;59;0;1;1;59;0;5;1;59;0;13;1;63;0;13;1;59;0;6;1;59;0;4;1;59;0;1;1;59;0;2;1;59;0;5;1;59;0;1;1;59;0;1;1;59;0;134;3;1;59;0;165;109;1;63;0;8;1;63;0;176;247;4;1;59;0;5;1;59;0;7;1;59;0;2;1;59;0;11;1;63;0;2;1;63;0;14;1;59;0;1;1;59;0;19;1;59;0;4;1;59;0;6;1;59;0;6;1;59;0;3;1;59;0;1;1;59;0;1;1;59;0;2;1;59;0;4;1;59;0;2;1;63;0;3;1;59;0;4;1;59;0;1;1;59;0;8;1;59;0;17;1;59;0;1;1;59;0;4;1;59;0;15;1;59;0;4;1;59;0;2;1;59;0;3;1;59;0;3;1;59;0;1;1;59;0;5;1;59;0;3;1;59;0;1;1;59;0;2;1;59;0;4;1;59;0;2;1;59;0;12;1;59;0;3;1;59;0;2;1;59;0;1;1;59;0;9;1;59;0;25;1;59;0;1;1;59;0;2;1;59;0;9;1;59;0;7;1;59;0;2;1;59;0;2;1;59;0;4;1;59;0;2;1;59;0;2;1;63;0;6;1;59;0;1;1;59;0;8;1;59;0;5;1;59;0;1;1;59;0;1;1;59;0;5;1;63;0;9;1;59;0;7;1;59;0;24;1;63;0;4;1;59;0;3;1;59;0;2;1;59;0;8;1;59;0;9;1;59;0;17;1;59;0;1;1;63;0;5;1;59;0;3;1;63;0;2;1;59;0;7;1;63;0;11;1;59;0;14;1;59;0;14;1;63;0;4;1;59;0;1;1;59;0;8;1;59;0;6;1;59;0;10;1;59;0;10;1;59;0;1;1;59;0;1;1;59;0;3;1;59;0;16;1;59;0;41;1;59;0;6;1;59;0;8;1;59;0;1;1;59;0;3;1;59;0;4;1;59;0;2;1;59;0;3;1;59;0;3;1;59;0;2;1;59;0;1;1;59;0;7;1;63;0;2;1;59;0;6;1;59;0;2;1;59;0;1;1;59;0;1;1;59;0;1;1;59;0;3;1;59;0;6;1;59;0;1;1;59;0;1;1;59;0;5;1;59;0;2;1;59;0;2;1;59;0;2;1;59;0;25;1;63;0;9;1;59;0;4;1;59;0;1;1;59;0;1;1;59;0;3;1;59;0;1;1;59;0;2;1;59;0;7;1;59;0;2;1;59;0;3;1;59;0;1;1;59;0;8;1;59;0;6;1;63;0;1;1;59;0;10;1;59;0;10;1;59;0;54;1;59;0;5;1;59;0;13;1;59;0;3;1;59;0;219;56;1;109;0;2;1;109;0;8;1;109;0;19;1;109;0;1;1;109;0;22;1;109;0;3;1;75;0;82;1;109;0;4;1;109;0;69;1;109;0;17;1;109;0;4;1;109;0;8;1;109;0;2;1;109;0;21;1;109;0;44;1;109;0;2;1;109;0;41;1;109;0;3;1;109;0;17;1;109;0;38;1;109;0;1;1;109;0;2;1;109;0;2;1;109;0;4;1;109;0;8;1;109;0;22;1;109;0;9;1;109;0;3;1;109;0;2;1;109;0;8;1;109;0;27;1;109;0;4;1;109;0;3;1;109;0;9;1;109;0;1;1;109;0;6;1;109;0;2;1;109;0;6;1;109;0;1;1;109;0;3;1;109;0;1;1;109;0;1;1;109;0;23;1;109;0;4;1;109;0;46;1;109;0;2;1;109;0;50;1;109;0;11;1;109;0;1;1;75;0;48;1;75;0;232;253;3;1;82;0;30;1;82;0;2;1;82;0;1;1;82;0;4;1;82;0;3;1;82;0;6;1;82;0;4;1;82;0;15;1;82;0;2;1;82;0;6;1;82;0;11;1;82;0;3;1;82;0;2;1;82;0;9;1;82;0;15;1;82;0;32;1;82;0;3;1;82;0;12;1;82;0;16;1;82;0;8;1;82;0;7;1;82;0;1;1;82;0;31;1;82;0;1;1;82;0;1;1;82;0;3;1;82;0;4;1;82;0;13;1;82;0;5;1;82;0;3;1;82;0;8;1;82;0;2;1;82;0;7;1;82;0;3;1;82;0;9;1;82;0;43;1;82;0;12;1;82;0;7;1;82;0;31;1;82;0;2;1;82;0;9;1;82;0;2;1;82;0;34;1;82;0;1;1;82;0;1;1;82;0;1;1;82;0;1;1;82;0;9;1;82;0;1;1;82;0;21;1;82;0;7;1;63;0;9;1;82;0;1;1;82;0;3;1;82;0;7;1;82;0;2;1;82;0;1;1;82;0;1;1;82;0;1;1;82;0;31;1;82;0;1;1;82;0;1;1;82;0;4;1;82;0;1;1;82;0;10;1;82;0;1;1;82;0;4;1;82;0;4;1;82;0;1;1;82;0;3;1;82;0;1;1;82;0;1;1;82;0;1;1;82;0;9;1;82;0;8;1;82;0;1;1;82;0;1;1;82;0;5;1;82;0;1;1;82;0;4;1;82;0;1;1;82;0;1;1;82;0;2;1;82;0;1;1;82;0;13;1;82;0;30;1;82;0;1;1;82;0;1;1;82;0;1;1;82;0;2;1;82;0;6;1;82;0;2;1;82;0;4;1;82;0;2;1;82;0;18;1;82;0;3;1;82;0;75;1;82;0;26;1;82;0;1;1;82;0;10;1;82;0;142;77;1;63;0;38;1;63;0;9;1;63;0;204;166;1;1;120;0;51;1;120;0;193;1;1;120;0;1;1;120;0;14;1;120;0;66;1;120;0;179;1;1;120;0;10;1;120;0;197;1;1;120;0;227;34;1;59;0;1;1;59;0;15;1;59;0;1;1;59;0;33;1;59;0;2;1;59;0;13;1;59;0;14;1;59;0;21;1;59;0;5;1;59;0;1;1;59;0;56;1;59;0;71;1;59;0;31;1;59;0;33;1;59;0;67;1;59;0;4;1;59;0;15;1;59;0;70;1;59;0;4;1;59;0;11;1;59;0;5;1;59;0;9;1;59;0;7;1;59;0;23;1;59;0;28;1;59;0;12;1;59;0;25;1;59;0;1;1;59;0;22;1;59;0;223;162;2;1;59;0;6;1;59;0;2;1;59;0;5;1;59;0;2;1;59;0;2;1;59;0;1;1;59;0;3;1;59;0;4;1;59;0;1;1;59;0;1;1;59;0;2;1;59;0;11;1;59;0;3;1;59;0;1;1;59;0;4;1;59;0;1;1;59;0;1;1;59;0;6;1;59;0;2;1;59;0;1;1;59;0;2;1;59;0;2;1;59;0;2;1;59;0;2;1;59;0;2;1;59;0;2;1;59;0;5;1;59;0;3;1;59;0;12;1;59;0;1;1;59;0;9;1;59;0;5;1;59;0;8;1;59;0;1;1;59;0;4;1;59;0;5;1;59;0;3;1;59;0;5;1;59;0;9;1;59;0;20;1;59;0;1;1;59;0;6;1;59;0;8;1;59;0;1;1;59;0;3;1;59;0;4;1;59;0;3;1;59;0;6;1;59;0;3;1;59;0;2;1;59;0;18;1;59;0;1;1;59;0;3;1;59;0;3;1;59;0;1;1;59;0;5;1;59;0;15;1;59;0;16;1;59;0;2;1;59;0;4;1;59;0;3;1;59;0;12;1;59;0;1;1;59;0;2;1;59;0;8;1;59;0;2;1;59;0;2;1;59;0;1;1;59;0;2;1;59;0;2;1;59;0;1;1;59;0;3;1;59;0;11;1;59;0;6;1;59;0;3;1;59;0;1;1;59;0;1;1;59;0;2;1;59;0;6;1;59;0;2;1;59;0;6;1;59;0;4;1;59;0;25;1;59;0;9;1;59;0;4;1;59;0;1;1;59;0;1;1;59;0;1;1;59;0;4;1;59;0;1;1;59;0;2;1;59;0;1;1;59;0;11;1;59;0;15;1;59;0;1;1;59;0;1;1;59;0;2;1;59;0;11;1;59;0;1;1;59;0;1;1;59;0;1;1;59;0;10;1;59;0;1;1;59;0;3;1;59;0;5;1;59;0;5;1;59;0;10;1;59;0;1;1;59;0;2;1;59;0;1;1;59;0;18;1;59;0;3;1;59;0;9;1;59;0;4;1;59;0;10;1;59;0;1;1;59;0;6;1;59;0;4;1;59;0;14;1;59;0;1;1;59;0;15;1;59;0;6;1;59;0;15;1;59;0;1;1;59;0;6;1;59;0;5;1;59;0;1;1;59;0;17;1;59;0;5;1;59;0;11;1;59;0;2;1;59;0;1;1;59;0;2;1;59;0;2;1;59;0;18;1;59;0;2;1;59;0;14;1;59;0;1;1;59;0;2;1;59;0;9;1;59;0;7;1;59;0;2;1;59;0;5;1;59;0;1;1;59;0;14;1;59;0;1;1;59;0;1;1;59;0;2;1;59;0;16;1;59;0;2;1;59;0;2;1;59;0;1;1;59;0;2;1;59;0;2;1;59;0;3;1;59;0;7;1;59;0;17;1;59;0;1;1;59;0;3;1;59;0;2;1;59;0;7;1;59;0;1;1;59;0;1;1;59;0;11;1;59;0;1;1;59;0;211;127;1;119;0;59;1;119;0;63;1;119;0;80;1;119;0;51;1;65;0;46;1;119;0;12;1;120;0;22;1;119;0;1;1;119;0;1;1;65;0;26;1;65;0;82;1;65;0;95;1;65;0;1;1;65;0;1;1;65;0;46;1;65;0;59;1;117;0;4;1;65;0;10;1;119;0;128;171;2;1;59;0;170;2;1;59;0;100;1;59;0;90;1;59;0;21;1;59;0;2;1;59;0;3;1;59;0;49;1;59;0;35;1;59;0;1;1;59;0;11;1;59;0;57;1;59;0;149;2;1;78;0;3;1;78;0;18;1;78;0;2;1;78;0;3;1;78;0;15;1;78;0;2;1;78;0;5;1;78;0;1;1;78;0;2;1;78;0;2;1;78;0;2;1;78;0;5;1;78;0;14;1;78;0;16;1;78;0;2;1;78;0;5;1;78;0;11;1;78;0;26;1;78;0;1;1;78;0;1;1;78;0;1;1;78;0;3;1;78;0;1;1;78;0;1;1;78;0;1;1;78;0;5;1;78;0;3;1;78;0;13;1;78;0;1;1;78;0;1;1;78;0;1;1;78;0;2;1;78;0;10;1;78;0;36;1;78;0;18;1;78;0;1;1;78;0;20;1;78;0;2;1;78;0;9;1;78;0;5;1;78;0;7;1;78;0;1;1;78;0;1;1;78;0;2;1;78;0;5;1;78;0;27;1;78;0;1;1;78;0;20;1;78;0;18;1;78;0;1;1;78;0;1;1;78;0;4;1;78;0;2;1;78;0;11;1;78;0;1;1;9;1;5;1;78;0;36;1;78;0;9;1;78;0;13;1;78;0;2;1;78;0;31;1;78;0;6;1;78;0;5;1;78;0;6;1;78;0;2;1;78;0;18;1;78;0;9;1;78;0;4;1;78;0;2;1;78;0;4;1;78;0;9;1;78;0;1;1;78;0;2;1;78;0;1;1;78;0;1;1;78;0;19;1;78;0;4;1;78;0;2;1;78;0;4;1;78;0;4;1;78;0;3;1;78;0;3;1;78;0;3;1;78;0;1;1;78;0;32;1;78;0;4;1;78;0;4;1;78;0;5;1;78;0;6;1;78;0;1;1;78;0;10;1;78;0;16;1;78;0;6;1;78;0;9;1;78;0;9;1;78;0;3;1;78;0;34;1;78;0;37;1;78;0;17;1;78;0;204;158;1;2;63;0;99;0;133;3;2;63;0;99;0;1;2;63;0;99;0;1;2;63;0;99;0;3;2;63;0;99;0;9;2;63;0;99;0;11;2;63;0;99;0;1;2;63;0;99;0;26;2;63;0;99;0;1;2;63;0;99;0;3;2;63;0;99;0;1;2;63;0;99;0;26;2;63;0;99;0;26;2;63;0;99;0;6;2;63;0;99;0;84;2;63;0;99;0;185;172;42;1;252;0;1;1;251;0;179;34;1;252;0;1;1;251;0;129;18;1;251;0;1;1;252;0;79;1;251;0;1;1;252;0;155;2;1;252;0;1;1;252;0;6;1;251;0;129;248;77;1;238;0;234;154;102;1;94;0;6;1;94;0;17;1;94;0;4;1;94;0;1;1;94;0;1;1;94;0;4;1;94;0;2;1;94;0;1;1;94;0;2;1;94;0;1;1;94;0;1;1;94;0;20;1;94;0;1;1;94;0;5;1;94;0;207;77;1;107;0;7;1;107;0;3;1;107;0;23;1;107;0;10;1;107;0;2;1;107;0;26;1;107;0;1;1;107;0;2;1;107;0;2;1;107;0;23;1;107;0;207;4;1;107;0;1;1;107;0;1;1;107;0;5;1;107;0;1;1;107;0;201;10;1;107;0;1;1;107;0;1;1;107;0;253;4;1;107;0;213;2;1;107;0;2;1;107;0;1;1;107;0;7;1;107;0;255;4;1;107;0;10;1;107;0;1;1;107;0;213;156;35;1;193;0;1;1;193;0;1;1;193;0;1;1;193;0;146;7;1;193;0;1;1;193;0;21;1;193;0;1;1;193;0;5;1;193;0;15;1;193;0;5;1;193;0;1;1;193;0;1;1;193;0;1;1;193;0;27;1;193;0;1;1;193;0;194;1;1;193;0;1;1;193;0;3;1;193;0;1;1;193;0;4;1;193;0;16;1;193;0;3;1;193;0;3;1;193;0;8;1;193;0;3;1;193;0;9;1;193;0;61;1;193;0;1;1;193;0;1;1;193;0;1;1;193;0;1;1;193;0;4;1;193;0;3;1;193;0;20;1;193;0;1;1;193;0;8;1;193;0;9;1;193;0;3;1;193;0;1;1;193;0;1;1;193;0;3;1;193;0;33;1;193;0;47;1;193;0;6;1;193;0;1;1;193;0;1;1;193;0;65;1;193;0;33;1;193;0;1;1;193;0;1;1;193;0;18;1;193;0;82;1;193;0;29;1;193;0;34;1;193;0;4;1;193;0;8;1;193;0;5;1;193;0;59;1;193;0;13;1;193;0;1;1;193;0;3;1;193;0;1;1;193;0;5;1;193;0;4;1;193;0;1;1;193;0;2;1;193;0;1;1;193;0;4;1;193;0;2;1;193;0;75;1;193;0;230;86;1;196;0;3;2;192;0;196;0;1;2;192;0;196;0;7;1;196;0;1;2;192;0;196;0;3;1;197;0;1;1;197;0;1;1;197;0;1;2;192;0;196;0;1;2;192;0;196;0;1;2;192;0;196;0;193;31;1;246;0;2;1;245;0;255;249;120;1;177;0;231;137;97;2;136;0;178;0;232;7;2;136;0;178;0;216;240;234;21;1;84;0;246;167;7;1;107;0;207;156;1;1;107;0;190;165;7;1;94;0;3;1;94;0;1;1;94;0;1;1;94;0;4;1;94;0;2;1;94;0;3;1;94;0;2;1;94;0;13;1;94;0;1;1;94;0;1;1;94;0;3;1;94;0;7;1;94;0;2;1;94;0;1;1;94;0;1;1;94;0;12;1;94;0;15;1;94;0;13;1;94;0;102;1;94;0;6;1;94;0;2;1;94;0;1;1;94;0;1;1;94;0;1;1;94;0;4;1;94;0;3;1;94;0;1;1;94;0;1;1;94;0;20;1;94;0;5;1;94;0;1;1;94;0;1;1;94;0;1;1;94;0;2;1;94;0;8;1;94;0;1;1;94;0;1;1;94;0;1;1;94;0;1;1;94;0;1;1;94;0;37;1;94;0;6;1;94;0;1;1;94;0;1;1;94;0;1;1;94;0;1;1;94;0;3;1;94;0;2;1;94;0;6;1;94;0;3;1;94;0;5;1;94;0;11;1;94;0;6;1;94;0;1;1;94;0;1;1;94;0;1;1;94;0;21;1;94;0;3;1;94;0;1;1;94;0;36;1;94;0;5;1;94;0;2;1;94;0;1;1;94;0;2;1;94;0;10;1;94;0;10;1;94;0;10;1;94;0;10;1;94;0;10;1;94;0;10;1;94;0;5;1;94;0;3;1;94;0;1;1;94;0;1;1;94;0;6;1;94;0;124;1;94;0;3;1;94;0;7;1;94;0;2;1;94;0;8;1;94;0;10;1;94;0;9;1;94;0;11;1;94;0;2;1;94;0;2;1;94;0;3;1;94;0;3;1;94;0;10;1;94;0;6;1;94;0;1;1;94;0;1;1;94;0;247;128;6;1;107;0;1;1;107;0;1;1;107;0;229;6;1;107;0;12;1;107;0;24;1;107;0;3;1;107;0;1;1;107;0;1;1;107;0;5;1;107;0;1;1;107;0;33;1;107;0;1;1;107;0;2;1;107;0;45;1;107;0;1;1;107;0;10;1;107;0;50;1;107;0;1;1;107;0;2;1;107;0;10;1;107;0;5;1;107;0;112;1;107;0;10;1;107;0;1;1;107;0;1;1;107;0;28;1;107;0;1;1;107;0;1;1;107;0;2;1;107;0;11;1;107;0;31;1;107;0;14;1;107;0;1;1;107;0;11;1;107;0;2;1;107;0;4;1;107;0;5;1;107;0;22;1;107;0;25;1;107;0;1;1;107;0;1;1;107;0;1;1;107;0;1;1;107;0;9;1;107;0;27;1;107;0;35;1;107;0;49;1;107;0;1;1;107;0;11;1;107;0;4;1;107;0;12;1;107;0;3;1;107;0;1;1;107;0;21;1;107;0;3;1;107;0;1;1;107;0;3;1;107;0;27;1;107;0;2;1;107;0;17;1;107;0;1;1;107;0;29;1;107;0;3;1;107;0;2;1;107;0;18;1;107;0;1;1;107;0;2;1;107;0;14;1;107;0;2;1;107;0;1;1;107;0;11;1;107;0;1;1;107;0;2;1;107;0;4;1;107;0;1;1;107;0;6;1;107;0;2;1;107;0;1;1;107;0;5;1;107;0;4;1;107;0;1;1;107;0;1;1;107;0;6;1;107;0;211;1;1;107;0;2;1;107;0;61;1;107;0;1;1;107;0;3;1;107;0;34;1;107;0;187;45;1;107;0;1;1;107;0;1;1;107;0;1;1;107;0;1;1;107;0;181;39;1;107;0;180;55;1;107;0;21;1;107;0;254;6;1;107;0;1;1;107;0;45;1;107;0;1;1;107;0;1;1;107;0;3;1;107;0;155;1;1;107;0;152;2;1;107;0;3;1;107;0;7;1;107;0;2;1;107;0;1;1;107;0;2;1;107;0;1;1;107;0;34;1;107;0;5;1;107;0;1;1;107;0;1;1;107;0;4;1;107;0;11;1;107;0;8;1;107;0;7;1;107;0;4;1;107;0;3;1;107;0;1;1;107;0;1;1;107;0;137;1;1;107;0;1;1;107;0;1;1;107;0;56;1;107;0;129;47;1;107;0;1;1;107;0;1;1;107;0;1;1;107;0;27;1;107;0;1;1;107;0;39;1;107;0;1;1;107;0;39;1;107;0;1;1;107;0;1;1;107;0;1;1;107;0;1;1;107;0;41;1;107;0;25;1;107;0;1;1;107;0;4;1;107;0;2;1;107;0;184;16;1;107;0;2;1;107;0;141;7;1;107;0;1;1;107;0;3;1;107;0;2;1;107;0;204;1;1;107;0;79;1;107;0;8;1;107;0;2;1;107;0;1;1;107;0;3;1;107;0;4;1;107;0;12;1;107;0;1;1;107;0;1;1;107;0;2;1;107;0;2;1;107;0;27;1;107;0;1;1;107;0;1;1;107;0;13;1;107;0;3;1;107;0;3;1;107;0;1;1;107;0;6;1;107;0;39;1;107;0;1;1;107;0;1;1;107;0;1;1;107;0;1;1;107;0;56;1;107;0;159;2;1;107;0;1;1;107;0;6;1;107;0;1;1;107;0;1;1;107;0;165;47;1;107;0;1;1;107;0;1;1;107;0;38;1;107;0;1;1;107;0;49;1;107;0;36;1;107;0;24;1;107;0;1;1;107;0;1;1;107;0;3;1;107;0;2;1;107;0;224;229;195;2;1;195;0;90;1;195;0;70;1;195;0;67;1;195;0;27;1;195;0;62;1;195;0;44;1;195;0;155;1;1;195;0;240;2;1;195;0;1;1;195;0;183;71;1;195;0;1;1;195;0;1;1;195;0;17;1;195;0;65;1;195;0;87;1;195;0;45;1;195;0;45;1;195;0;137;2;1;195;0;26;1;195;0;238;2;1;195;0;218;226;27;1;193;0;1;1;193;0;1;1;193;0;1;1;193;0;253;74;1;193;0;40;1;193;0;1;1;193;0;2;1;193;0;8;1;193;0;8;1;193;0;136;2;1;193;0;15;1;193;0;54;1;193;0;183;16;1;193;0;4;1;193;0;210;14;1;193;0;1;1;193;0;1;1;193;0;1;1;193;0;190;5;1;193;0;214;5;1;193;0;1;1;193;0;1;1;193;0;3;1;193;0;140;2;1;193;0;1;1;193;0;1;1;193;0;1;1;193;0;212;8;1;193;0;176;4;1;193;0;11;1;193;0;239;5;1;193;0;1;1;193;0;1;1;193;0;48;1;193;0;1;1;193;0;186;2;1;193;0;166;231;6;1;245;0;1;1;246;0;28;1;245;0;1;1;246;0;28;1;245;0;1;1;246;0;27;1;196;0;1;1;245;0;1;1;246;0;11;2;192;0;196;0;16;2;192;0;196;0;1;1;245;0;1;1;246;0;1;2;192;0;196;0;21;2;192;0;196;0;1;2;192;0;196;0;1;2;192;0;196;0;1;2;192;0;196;0;1;2;192;0;196;0;2;1;245;0;10;2;192;0;196;0;2;2;192;0;196;0;17;1;245;0;1;1;246;0;9;2;192;0;196;0;2;2;192;0;196;0;17;1;245;0;1;1;197;0;4;2;192;0;196;0;12;2;192;0;196;0;1;1;245;0;1;1;246;0;1;1;196;0;1;1;196;0;1;1;196;0;1;2;192;0;196;0;1;2;192;0;196;0;1;2;192;0;196;0;1;1;197;0;1;2;192;0;196;0;1;1;197;0;1;1;197;0;1;1;197;0;1;1;245;0;1;2;192;0;196;0;1;2;192;0;196;0;1;2;192;0;196;0;1;2;192;0;196;0;242;177;2;3;192;0;194;0;196;0;2;3;192;0;194;0;196;0;227;4;3;192;0;196;0;245;0;1;3;192;0;196;0;245;0;1;3;192;0;196;0;245;0;1;3;192;0;196;0;245;0;1;3;192;0;196;0;246;0;1;3;192;0;196;0;246;0;1;3;192;0;196;0;246;0;17;3;192;0;196;0;246;0;93;3;192;0;196;0;246;0;27;3;192;0;196;0;245;0;1;3;192;0;196;0;246;0;28;3;192;0;196;0;245;0;1;3;192;0;196;0;246;0;2;3;192;0;196;0;245;0;1;3;192;0;196;0;246;0;27;3;192;0;196;0;245;0;1;3;192;0;196;0;246;0;53;3;192;0;196;0;245;0;1;3;192;0;196;0;246;0;44;3;192;0;196;0;246;0;4;3;192;0;196;0;245;0;10;3;192;0;196;0;246;0;4;3;192;0;196;0;245;0;42;3;192;0;196;0;246;0;7;3;192;0;196;0;245;0;53;3;192;0;196;0;246;0;28;3;192;0;196;0;245;0;41;3;192;0;196;0;245;0;1;3;192;0;196;0;246;0;202;1;3;192;0;196;0;245;0;1;3;192;0;196;0;245;0;1;3;192;0;196;0;246;0;1;1;246;0;7;3;192;0;196;0;245;0;1;3;192;0;196;0;245;0;1;3;192;0;196;0;245;0;246;1;1;245;0;1;3;192;0;196;0;246;0;190;222;136;139;1;3;210;0;212;0;218;0].

(** carrier/data/ko.txt.gz *)
Definition carrier_ko_blob : bytes :=
  [25;0;0;0;75;84;10;83;75;32;237;133;148;235;167;129;237;129;172;10;235;141;176;236;157;180;236;189;164;81;0;0;0;147;64;1;0;5;0;0;1;1;0;1;0;0;1;2;0;153;193;4;2;0;4;1;0;18;0;0;210;140;45;1;0;1;1;0;1;2;0;1;2;0;1;2;0;1;0;0;1;0;0;1;0;0;1;0;0;1;0;0;1;0;0;1;1;0;1;0;0;1;0;0;1;0;0;1;1;0;1;1;0;1;1;0;1;1;0;1;2;0;3;0;0;1;0;0;1;0;0;6;1;0;1;0;0;1;1;0;1;1;0;1;1;0;1;2;0;1;2;0;1;2;0;1;2;0;4;1;0;1;1;0;1;1;0;1;0;0;1;0;0;1;0;0;1;0;0;3;1;0;1;0;0;1;0;0;1;0;0;1;2;0;1;2;0;1;2;0;2;2;0;1;2;0;1;2;0;1;2;0;1;2;0;1;2;0;1;1;0;1;1;0;1;1;0;1;1;0;1;1;0;1;1;0;1;1;0;1;1;0;1;1;0;1;1;0;1;0;0;1;0;0;1;0;0;1;0;0;1;0;0;179;130;195;3;1;0;1;1;0;1;1;0;1;1;0;1;1;0;1;1;0].

(** carrier/data/ar.txt.gz *)
Definition carrier_ar_blob : bytes :=
  [42;0;0;0;86;105;114;103;105;110;32;109;111;98;105;108;101;10;216;163;217;136;216;177;217;138;216;175;217;136;10;216;178;217;138;217;134;10;217;129;217;138;217;129;216;167;4;0;0;0;182;75;0;0;1;3;0;1;1;0;3;2;0].

(** geocoding/data/ko.txt.gz *)
Definition geocoding_ko_blob : bytes :=
  [118;0;0;0;234;176;149;236;155;144;10;234;178;189;234;184;176;10;234;178;189;235;130;168;10;234;178;189;235;182;129;10;234;180;145;236;163;188;10;235;140;128;234;181;172;10;235;140;128;236;160;132;10;235;182;128;236;130;176;10;236;132;156;236;154;184;10;236;132;184;236;162;133;10;236;154;184;236;130;176;10;236;157;184;236;178;156;10;236;160;132;235;130;168;10;236;160;132;235;182;129;10;236;160;156;236;163;188;10;236;182;169;235;130;168;10;236;182;169;235;182;129;17;0;0;0;182;6;8;0;241;57;1;0;1;11;0;1;0;0;8;15;0;1;6;0;1;16;0;1;9;0;7;7;0;1;10;0;1;5;0;1;3;0;1;2;0;6;12;0;1;4;0;1;13;0;1;14;0].
