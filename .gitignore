*.vo
*.vok
*.vos
*.glob
*.aux
.*.aux
*.cache
.nra.cache
.lia.cache
.coqdeps.d
rocq/Makefile
rocq/Makefile.conf
rocq/.Makefile.d
