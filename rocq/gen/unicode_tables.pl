#!/usr/bin/perl
# Generates ../theories/UnicodeTables.v: the Unicode 15.0 range tables (the version of Go 1.24's unicode package)
# used by the repository's regular expressions and by unicode.IsDigit/IsLetter/Is.
use strict; use warnings; use Unicode::UCD qw(prop_invlist);
die "need Unicode 15.0" unless Unicode::UCD::UnicodeVersion() eq "15.0.0";
my @t = (["tab_Nd","General_Category=Nd"],["tab_N","General_Category=N"],["tab_L","General_Category=L"],
  ["tab_Z","General_Category=Z"],["tab_Mn","General_Category=Mn"],["tab_Sc","General_Category=Sc"],["tab_Latin","Script=Latin"]);
print "(** GENERATED by gen/unicode_tables.pl: Unicode 15.0 range tables (inclusive code point ranges, ascending). *)\n";
print "From Coq Require Import List NArith.\nImport ListNotations.\nOpen Scope N_scope.\n\n";
for my $e (@t) {
  my ($n,$p)=@$e; my @l = prop_invlist($p); die $p unless @l;
  my @r; for (my $i=0;$i<@l;$i+=2) { my $hi = $i+1<@l ? $l[$i+1]-1 : 0x10FFFF; push @r,"($l[$i],$hi)"; }
  print "Definition $n : list (N * N) := [\n";
  while (@r) { print "  ", join("; ", splice(@r,0,8)), (@r?";":""), "\n"; }
  print "].\n\n";
}
