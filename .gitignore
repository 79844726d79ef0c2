rocq/Makefile
rocq/Makefile.conf
rocq/.Makefile.d
rocq/.*.cache
rocq/.CoqMakefile.d
rocq/.coqdeps.d
*.vo
*.vok
*.vos
*.glob
*.aux
*.cache
