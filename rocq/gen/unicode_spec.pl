#!/usr/bin/perl
# Generates ../theories/UnicodeSpec.v: every Unicode 15.0 code point of category Nd with its decimal value, taken from
# the character database record of each code point (not from range arithmetic as the library does).
use strict; use warnings; use Unicode::UCD qw(charinfo prop_invlist);
die "need Unicode 15.0" unless Unicode::UCD::UnicodeVersion() eq "15.0.0";
print "(** GENERATED by gen/unicode_spec.pl: the decimal value of every Unicode 15.0 code point of category Nd, one by one. *)\n";
print "From Coq Require Import List NArith.\nImport ListNotations.\nOpen Scope N_scope.\n\nDefinition decimal_values : list (N * N) := [\n";
my @l = prop_invlist("General_Category=Nd"); my @r;
for (my $i=0;$i<@l;$i+=2) { for my $c ($l[$i] .. $l[$i+1]-1) { push @r, "($c,".charinfo($c)->{decimal}.")"; } }
while (@r) { print "  ", join("; ", splice(@r,0,10)), (@r?";":""), "\n"; }
print "].\n";
